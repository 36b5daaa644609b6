(** A request of a node object ends: the gateway's task that sends its command does, and then its wait for the answer. *)
From Coq Require Import String ZArith List Bool Lia Arith.
From Verif Require Import Py Schema Registry Codec Waiter Conn SpecConn SpecLive ConnLemmas ConnCut.
From Verif Require Import Gateway SpecGateway SpecGatewayLive GatewayProofs GatewayNode GatewayPrompt NodeSendM NodeReq SpecNodeReq SpecNodeLive NodeReqProofs NodeM SystemM SpecSystem SpecSystemLive SystemProofs SystemAnswer SystemReach.
From Verif Require ConnLive GatewayStory GatewayTable GatewayLive NodeLive AppM.
Import ListNotations.
Open Scope list_scope.
Open Scope string_scope.
Open Scope list_scope.
Open Scope Z_scope.

(** ** the end of the sending reaches the request *)
Lemma other_stays n e n' os u x : nstep n e = Some (n', os) -> nth_error (n_tasks n) u = Some x -> n_pc x = NSending -> runs_on e -> (forall r, e <> NEvSent u r) -> nth_error (n_tasks n') u = Some x.
Proof.
  intros ST N P RO NE. destruct (NodeLive.step_move _ _ _ _ _ _ ST N) as (y & Y & C & M). rewrite P in M. destruct x as [c p], y as [c' p']. cbn in *. subst c' p.
  inversion M; subst; [exact Y|edestruct NE; reflexivity|edestruct NE; reflexivity|destruct RO].
Qed.
Lemma settle_sent os : forall s s' xs t r i u h tmo, settle os s = (s', xs) -> In (GRet t r) os -> dget Nat.eqb t (y_sends s) = Some (i, u) ->
  nth_error (n_tasks (y_n s i)) u = Some (mkNT (NReq h tmo) NSending) -> exists r', In (YN i (NSent u r')) xs.
Proof.
  induction os as [|o os IH]; intros s s' xs t r i u h tmo E J D N; [destruct J|].
  assert (SK : In (GRet t r) os -> settle os s = (s', xs) -> exists r', In (YN i (NSent u r')) xs) by (intros J' E'; exact (IH _ _ _ _ _ _ _ _ _ E' J' D N)).
  destruct o; try (destruct J as [J|J]; [discriminate|exact (SK J E)]). cbn [settle] in E.
  destruct (dget Nat.eqb t0 (y_sends s)) as [[j v]|] eqn:D0; [|destruct J as [J|J]; [injection J as -> ->; congruence|exact (SK J E)]].
  destruct (node_go j (NEvSent v (sent_result r0)) s) as [s1 o1] eqn:E1. destruct (settle os s1) as [s2 o2] eqn:E2. injection E as <- <-.
  destruct (Nat.eq_dec j i) as [->|NI]; [destruct (Nat.eq_dec v u) as [->|NU]|].
  - unfold node_go in E1. cbn [nstep] in E1. rewrite N in E1. exists (sent_result r0). apply in_or_app. left. destruct (sent_result r0) as [[]|e]; injection E1 as _ <-; left; reflexivity.
  - assert (J' : In (GRet t r) os) by (destruct J as [J|J]; [injection J as -> ->; congruence|exact J]).
    assert (N' : nth_error (n_tasks (y_n s1 i)) u = Some (mkNT (NReq h tmo) NSending)).
    { unfold node_go in E1. destruct (nstep (y_n s i) (NEvSent v (sent_result r0))) as [[n xs]|] eqn:ST; injection E1 as <- _; [|exact N]. cbn. rewrite Nat.eqb_refl. eapply other_stays; try eassumption; [reflexivity|exact I|congruence]. }
    destruct (node_go_spec i (NEvSent v (sent_result r0)) s s1 o1 0 I ltac:(discriminate) E1) as (_ & _ & _ & S & _). rewrite <- S in D. destruct (IH _ _ _ _ _ _ _ _ _ E2 J' D N') as (r' & Q). exists r'. apply in_or_app. auto.
  - assert (J' : In (GRet t r) os) by (destruct J as [J|J]; [injection J as -> ->; congruence|exact J]).
    assert (N' : nth_error (n_tasks (y_n s1 i)) u = Some (mkNT (NReq h tmo) NSending)).
    { unfold node_go in E1. destruct (nstep (y_n s j) (NEvSent v (sent_result r0))) as [[n xs]|]; injection E1 as <- _; [|exact N]. cbn. destruct (Nat.eqb_spec i j); [congruence|exact N]. }
    destruct (node_go_spec j (NEvSent v (sent_result r0)) s s1 o1 0 I ltac:(discriminate) E1) as (_ & _ & _ & S & _). rewrite <- S in D. destruct (IH _ _ _ _ _ _ _ _ _ E2 J' D N') as (r' & Q). exists r'. apply in_or_app. auto.
Qed.
(** a request whose command's sending has not ended is still being sent *)
Lemma ret_sent es s tr : nexec nstate0 es s tr -> Forall runs_on es -> forall n u h tmo m r, In (n, NCall u (NReq h tmo)) tr -> In (m, NRet u r) tr ->
  (exists T, In (T, NSent u (Ok true)) tr) \/ exists r', In (m, NSent u r') tr.
Proof.
  induction 1 as [|es s tr e s' os X IH ST]; intros RO n u h tmo m r C R; [destruct R|]. apply Forall_app in RO as [RO RE]. apply Forall_inv in RE.
  assert (TK : exists x, nth_error (n_tasks s) u = Some x).
  { apply in_app_or in R as [R|R]; [destruct (ret_done _ _ _ X _ _ _ R) as (x & A & _); eauto|]. apply in_stamp in R as [_ R]. destruct (nth_error (n_tasks s) u) as [x|] eqn:Y; [eauto|].
    destruct (step_tasks _ _ _ _ ST) as (_ & _ & _ & _ & OR & _). destruct (OR _ _ R) as (y & Y' & _). destruct (NodeLive.step_new _ _ _ _ _ _ ST Y Y') as (c & _ & -> & _). destruct R as [R|[]]. discriminate. }
  destruct TK as (x & TK). assert (C' : In (n, NCall u (NReq h tmo)) tr).
  { apply in_app_or in C as [C|C]; [exact C|]. apply in_stamp in C as [_ C]. destruct (step_tasks _ _ _ _ ST) as (_ & _ & _ & OC & _). destruct (OC _ _ C) as [U _]. assert (L : nth_error (n_tasks s) u <> None) by congruence. apply nth_error_Some in L. lia. }
  apply in_app_or in R as [R|R]; [destruct (IH RO _ _ _ _ _ _ C' R) as [(T & Q)|(r' & Q)]; [left; exists T|right; exists r']; apply in_or_app; auto|].
  apply in_stamp in R as [-> R]. destruct (call_task _ _ _ X _ _ _ C') as (x' & TK' & XC). rewrite TK in TK'. injection TK' as <-.
  destruct (NodeLive.step_move _ _ _ _ _ _ ST TK) as (y & Y & _ & M). pose proof (NodeLive.stage_exec _ _ _ X _ _ TK) as SG. rewrite XC in *.
  inversion M as [e0 p0 o0 O NS NR|h0 tmo0 f0 ph0 Q|r0 r' N|h0 f0 dl|h0 f0 dl|h0 f0 dl ph r0|h0 f0 r0|r0|h0 f0 dl ph]; subst.
  - destruct (NR _ R).
  - left. exists (n_now s). apply in_or_app. right. left. reflexivity.
  - right. exists r0. apply in_or_app. right. left. reflexivity.
  - destruct R.
  - destruct R.
  - rewrite <- H0 in SG. destruct SG as ((T & W & _) & _). left. exists T. apply in_or_app. left. exact W.
  - symmetry in H0. destruct (none_cancels _ _ _ X RO _ _ _ _ TK H0).
  - destruct RE.
  - destruct R.
Qed.
Lemma unsent es s tr : nexec nstate0 es s tr -> Forall runs_on es -> forall n u h tmo, In (n, NCall u (NReq h tmo)) tr -> (forall m r, ~ In (m, NSent u r) tr) ->
  nth_error (n_tasks s) u = Some (mkNT (NReq h tmo) NSending).
Proof.
  intros X RO n u h tmo C NS. destruct (call_task _ _ _ X _ _ _ C) as ([c p] & TK & XC). cbn in XC. subst c. rewrite TK. pose proof (NodeLive.stage_exec _ _ _ X _ _ TK) as SG. cbn in SG.
  destruct p as [|h0 f dl ph|h0 f|r]; [reflexivity|..]; exfalso.
  - destruct SG as ((T & W & _) & _). exact (NS _ _ W).
  - destruct SG as ((T & W) & _). exact (NS _ _ W).
  - destruct SG as (m & J). destruct (ret_sent _ _ _ X RO _ _ _ _ _ _ C J) as [(T & Q)|(r' & Q)]; exact (NS _ _ Q).
Qed.

Section System.
Variable ord : list Z -> list Z.
Notation yexec := (yexec ord).
Notation ystep := (ystep ord).
Lemma gw_sent n e s s' os t r i u h tmo : gw_go ord e s = Some (s', os) -> In (GRet t r) (map snd (on_gw (ystamp n os))) -> dget Nat.eqb t (y_sends s) = Some (i, u) ->
  nth_error (n_tasks (y_n s i)) u = Some (mkNT (NReq h tmo) NSending) -> exists r', In (n, NSent u r') (on_node i (ystamp n os)).
Proof.
  intros E J D N. unfold gw_go in E. destruct (gstep ord (y_g s) e) as [[g gos]|] eqn:G; [|discriminate].
  destruct (settle gos (set_mail (y_mail s ++ mails gos) (set_g g s))) as [s1 nos] eqn:S. injection E as <- <-. destruct (settle_spec 0 _ _ _ _ S) as (_ & _ & _ & _ & _ & AN & _).
  rewrite ystamp_app, gw_app, gw_of_g, (nodes_gw _ _ AN), app_nil_r in J. unfold gstamp in J. rewrite map_map in J. cbn in J. rewrite map_id in J.
  destruct (settle_sent _ _ _ _ _ _ _ _ _ _ S J D N) as (r' & Q). exists r'. apply in_node. apply ystamp_in. apply in_or_app. auto.
Qed.
(** the steps with something of the gateway *)
Lemma gw_steps s e s' os : ystep s e = Some (s', os) ->
  ((forall n, on_gw (ystamp n os) = []) /\ y_sends s' = y_sends s /\ (forall i u t cmd stmo, ~ In (YUse i u t cmd stmo) os) /\ g_tasks (y_g s') = g_tasks (y_g s)) \/
  (exists ge, gw_go ord ge s = Some (s', os)) \/
  (exists i h tmo cmd stmo c s1 o1 o2, let u := length (n_tasks (y_n s i)) in let t := length (g_tasks (y_g s)) in
     node_go i (NEvCall (NReq h tmo)) s = (s1, o1) /\ gw_go ord (GCall c) (add_send t i u s1) = Some (s', o2) /\ os = o1 ++ YUse i u t cmd stmo :: o2).
Proof.
  intros E. assert (AN : forall l, at_nodes l -> forall a b c d f, ~ In (YUse a b c d f) l) by (intros l A a b c d f J'; unfold at_nodes in A; rewrite Forall_forall in A; exact (A _ J')).
  destruct e as [dt|e|e|k|j c cmd' stmo'|j e]; cbn [SystemM.ystep] in E.
  - left. destruct (gstep ord (y_g s) (GAdvance dt)) as [[g go]|] eqn:G; [|discriminate]. injection E as <- <-. cbn [gstep] in G. destruct (0 <=? dt); [|discriminate]. injection G as <- _.
    split; [reflexivity|]. split; [reflexivity|]. split; [intros ? ? ? ? ? []|reflexivity].
  - right. left. exists e. destruct e; try discriminate E; exact E.
  - left. assert (Q : exists a aos, s' = set_a a s /\ os = map YA aos).
    { destruct e as [c|x r|z]; [destruct c; try discriminate E| |]; match type of E with match ?x with _ => _ end = _ => destruct x as [[a aos]|]; [|discriminate E] end; injection E as <- <-; exists a, aos; auto. }
    destruct Q as (a & aos & -> & ->). split; [intros; apply gw_of_a|]. split; [reflexivity|]. split; [|reflexivity]. intros ? ? ? ? ? J. apply in_map_iff in J as (? & ? & _). discriminate.
  - left. destruct (nth_error (y_mail s) k) as [x|]; [|discriminate]. destruct (AppM.astep _ _) as [[a aos]|]; [|discriminate]. destruct (handle_all aos _) as [s1 nos] eqn:H. injection E as <- <-.
    destruct (handle_spec 0 _ _ _ _ H) as (A1 & _ & _ & A4 & _ & A & _). split; [intros n; rewrite ystamp_app, gw_app, gw_of_a, (nodes_gw _ _ A); reflexivity|]. split; [exact A4|]. split; [|rewrite A1; reflexivity].
    intros ? ? ? ? ? J. apply in_app_or in J as [J|J]; [apply in_map_iff in J as (? & ? & _); discriminate|]. destruct (AN _ A _ _ _ _ _ J).
  - destruct (nth_error (AppM.a_objs (y_a s)) j) as [o|]; [|discriminate]. destruct c as [h tmo|h tmo].
    + destruct (node_go j (NEvCall (NReq h tmo)) s) as [s1 o1] eqn:N1. match type of E with match ?x with _ => _ end = _ => destruct x as [[s2 o2]|] eqn:G; [|discriminate E] end. injection E as <- <-.
      right. right. exists j, h, tmo, cmd', stmo', (send_call (AppM.o_root o) (AppM.o_ep o) cmd' stmo'), s1, o1, o2. auto.
    + left. assert (E' : node_go j (NEvCall (NWait h tmo)) s = (s', os)) by congruence. clear E. rename E' into E. destruct (plain_go j (NEvCall (NWait h tmo)) s s' os I E) as (A & _). destruct (node_go_spec j (NEvCall (NWait h tmo)) s s' os 0 I ltac:(discriminate) E) as (A1 & _ & _ & A4 & _).
      split; [intros n; apply nodes_gw; exact A|]. split; [exact A4|]. split; [exact (AN _ A)|rewrite A1; reflexivity].
  - left. assert (P : plain e /\ node_go j e s = (s', os)) by (destruct e; try discriminate; (split; [exact I|]); match type of E with match ?x with _ => _ end = _ => destruct x; [|discriminate] end; congruence).
    destruct P as [P N1]. destruct (plain_go j e s s' os P N1) as (A & _). assert (NA : forall dt, e <> NEvAdvance dt) by (intros dt ->; destruct P). assert (RO : runs_on e) by (destruct e; try destruct P; exact I).
    destruct (node_go_spec j e s s' os 0 RO NA N1) as (A1 & _ & _ & A4 & _). split; [intros n; apply nodes_gw; exact A|]. split; [exact A4|]. split; [exact (AN _ A)|rewrite A1; reflexivity].
Qed.
Lemma fun_ret es g tr : gexec ord gw0 es g tr -> forall n t r, In (n, GRet t r) tr -> (t < length (g_tasks g))%nat.
Proof.
  intros X n t r J. destruct (GatewayStory.story ord (fun _ _ _ _ => True) (fun _ _ _ _ _ _ _ => I) (fun _ _ _ _ _ _ _ _ _ _ _ _ _ _ => I) _ _ _ X) as [_ S]. destruct (Nat.lt_ge_cases t (length (g_tasks g))) as [|GE]; [assumption|exfalso]. specialize (S t GE).
  assert (Q : In (GRet t r) (SpecGateway.own t tr)); [|rewrite S in Q; destruct Q]. unfold SpecGateway.own. apply filter_In. split; [apply in_map_iff; exists (n, GRet t r); auto|]. cbn. unfold mine. cbn. apply Nat.eqb_refl.
Qed.
Definition sends_on (s : sys) (tr : ytrace) : Prop := forall k i u t cmd stmo, In (k, YUse i u t cmd stmo) tr ->
  dget Nat.eqb t (y_sends s) = Some (i, u) /\ (t < length (g_tasks (y_g s)))%nat /\ (exists c, In (k, GCalled t c) (on_gw tr)) /\
  forall n r, In (n, GRet t r) (on_gw tr) -> exists T r', In (T, NSent u r') (on_node i tr).
Lemma in_snd {A B} (k : A) (o : B) l : In (k, o) l -> In o (map snd l). Proof. intros J. apply in_map_iff. exists (k, o). auto. Qed.
Lemma gw_no_use e s s' os : gw_go ord e s = Some (s', os) -> forall i u t cmd stmo, ~ In (YUse i u t cmd stmo) os.
Proof.
  intros G a b c d f J'. destruct (gw_go_spec _ 0 _ _ _ _ G) as (gos & nos & _ & -> & A & _). apply in_app_or in J' as [J'|J']; [apply in_map_iff in J' as (? & ? & _); discriminate|]. unfold at_nodes in A. rewrite Forall_forall in A. exact (A _ J').
Qed.
Lemma sends_exec es s tr : yexec sys0 es s tr -> sends_on s tr.
Proof.
  induction 1 as [|es s tr e s' os X IH ST]; [intros ? ? ? ? ? ? []|].
  pose proof (yexec_inv _ _ _ _ X) as [[ges XG] VA VN VM VS VR VT]. pose proof (proj1 (use_once _ _ _ _ X)) as UC.
  assert (OLD : forall k i u t cmd stmo, In (k, YUse i u t cmd stmo) tr -> (exists T r', In (T, NSent u r') (on_node i tr)) \/ exists h tmo, nth_error (n_tasks (y_n s i)) u = Some (mkNT (NReq h tmo) NSending)).
  { intros k i u t cmd stmo J. destruct (UC _ _ _ _ _ _ J) as (h & tmo & C). apply in_node in C. destruct (VN i) as (nes & XN & _ & RO).
    destruct (call_task _ _ _ XN _ _ _ C) as ([c p] & TK & XC). cbn in XC. subst c. pose proof (NodeLive.stage_exec _ _ _ XN _ _ TK) as SG. cbn in SG. destruct p as [|h0 f dl ph|h0 f|r].
    - right. eauto.
    - left. destruct SG as ((T & W & _) & _). eauto.
    - left. destruct SG as ((T & W) & _). eauto.
    - left. destruct SG as (m & Q). destruct (ret_sent _ _ _ XN RO _ _ _ _ _ _ C Q) as [(T & Q')|(r' & Q')]; eauto. }
  assert (GR : forall ge s0 s1 o1, gw_go ord ge s0 = Some (s1, o1) -> y_g s0 = y_g s -> (length (g_tasks (y_g s)) <= length (g_tasks (y_g s1)))%nat /\ y_sends s1 = y_sends s0).
  { intros ge s0 s1 o1 G Q. destruct (gw_go_spec _ 0 _ _ _ _ G) as (gos & nos & G1 & _ & _ & _ & _ & D & _). split; [|exact D]. rewrite Q in G1. apply step_case in G1. exact (proj1 (GatewayTable.tasks_grow _ _ _ _ _ G1)). }
  intros k i u t cmd stmo J. destruct (gw_steps _ _ _ _ ST) as [(Q1 & Q2 & Q3 & Q4)|[(ge & G)|(j & h & tmo & cmd' & stmo' & c & s1 & o1 & o2 & N1 & G & ->)]].
  - apply in_app_or in J as [J|J]; [|apply in_ystamp in J as [_ J]; destruct (Q3 _ _ _ _ _ J)]. destruct (IH _ _ _ _ _ _ J) as (A & B & (c & C) & D). rewrite Q2, Q4, gw_app, Q1, app_nil_r.
    split; [exact A|]. split; [exact B|]. split; [eauto|]. intros n r R. destruct (D _ _ R) as (T & r' & W). exists T, r'. rewrite node_app. apply in_or_app. auto.
  - apply in_app_or in J as [J|J]; [|apply in_ystamp in J as [_ J]; destruct (gw_no_use _ _ _ _ G _ _ _ _ _ J)]. destruct (IH _ _ _ _ _ _ J) as (A & B & (c & C) & D). destruct (GR _ _ _ _ G eq_refl) as [L S].
    rewrite S. split; [exact A|]. split; [lia|]. rewrite gw_app, node_app. split; [exists c; apply in_or_app; auto|]. intros n r R.
    destruct (OLD _ _ _ _ _ _ J) as [(T & r' & W)|(h & tmo & W)]; [exists T, r'; apply in_or_app; auto|]. apply in_app_or in R as [R|R]; [destruct (D _ _ R) as (T & r' & Q); exists T, r'; apply in_or_app; auto|].
    apply in_snd in R. destruct (gw_sent _ _ _ _ _ _ _ _ _ _ _ G R A W) as (r' & Q). exists (y_now s), r'. apply in_or_app. auto.
  - set (v := length (n_tasks (y_n s j))) in *. set (t0 := length (g_tasks (y_g s))) in *. destruct (node_go_spec j (NEvCall (NReq h tmo)) s s1 o1 0 I ltac:(discriminate) N1) as (E1 & _ & _ & E4 & _ & _).
    destruct (plain_go j (NEvCall (NReq h tmo)) s s1 o1 I N1) as (AN1 & _). destruct (GR _ _ _ _ G E1) as [L S]. cbn [add_send y_sends] in S. rewrite E4 in S.
    assert (GO : on_gw (ystamp (y_now s) (o1 ++ YUse j v t0 cmd' stmo' :: o2)) = on_gw (ystamp (y_now s) o2)) by (rewrite ystamp_app, gw_app, (nodes_gw _ _ AN1); reflexivity).
    assert (NO : forall i T o, In (T, o) (on_node i (ystamp (y_now s) o2)) -> In (T, o) (on_node i (ystamp (y_now s) (o1 ++ YUse j v t0 cmd' stmo' :: o2)))).
    { intros i' T o Q. rewrite ystamp_app, node_app. apply in_or_app. right. exact Q. }
    assert (KEEP : forall i u x, nth_error (n_tasks (y_n s i)) u = Some x -> n_pc x = NSending -> nth_error (n_tasks (y_n s1 i)) u = Some x).
    { intros i' u' x W P. unfold node_go in N1. destruct (nstep (y_n s j) (NEvCall (NReq h tmo))) as [[n xs]|] eqn:Q; injection N1 as <- _; [|exact W]. cbn. destruct (Nat.eqb_spec i' j) as [->|]; [|exact W].
      eapply other_stays; [exact Q|exact W|exact P|exact I|discriminate]. }
    rewrite gw_app, GO, node_app, S. apply in_app_or in J as [J|J].
    + destruct (IH _ _ _ _ _ _ J) as (A & B & (c0 & C) & D). assert (A' : dget Nat.eqb t ((t0, (j, v)) :: y_sends s) = Some (i, u)) by (cbn; destruct (Nat.eqb_spec t t0); [lia|exact A]).
      split; [exact A'|]. split; [lia|]. split; [exists c0; apply in_or_app; auto|]. intros n r R.
      destruct (OLD _ _ _ _ _ _ J) as [(T & r' & W)|(h' & tmo' & W)]; [exists T, r'; apply in_or_app; auto|]. apply in_app_or in R as [R|R]; [destruct (D _ _ R) as (T & r' & Q); exists T, r'; apply in_or_app; auto|].
      apply in_snd in R. assert (A2 : dget Nat.eqb t (y_sends (add_send t0 j v s1)) = Some (i, u)) by (cbn [add_send y_sends]; rewrite E4; exact A'). assert (W2 : nth_error (n_tasks (y_n (add_send t0 j v s1) i)) u = Some (mkNT (NReq h' tmo') NSending)) by (apply KEEP; [exact W|reflexivity]).
      destruct (gw_sent _ _ _ _ _ _ _ _ _ _ _ G R A2 W2) as (r' & Q). exists (y_now s), r'. apply in_or_app. right. apply NO. exact Q.
    + apply in_ystamp in J as [-> J]. apply in_app_or in J as [J|[J|J]]; [unfold at_nodes in AN1; rewrite Forall_forall in AN1; destruct (AN1 _ J)| |destruct (gw_no_use _ _ _ _ G _ _ _ _ _ J)]. injection J as <- <- <- <- <-.
      assert (A' : dget Nat.eqb t0 ((t0, (j, v)) :: y_sends s) = Some (j, v)) by (cbn; rewrite Nat.eqb_refl; reflexivity).
      destruct (gw_go_spec _ 0 _ _ _ _ G) as (gos & nos & G1 & O2 & AN2 & _). cbn [gstep] in G1. assert (G1' : Some (spawn ord c (y_g (add_send t0 j v s1))) = Some (y_g s', gos)) by (destruct c; try discriminate G1; exact G1). clear G1. rename G1' into G1. injection G1 as G1. unfold spawn in G1. cbn [add_send y_g] in G1. rewrite E1 in G1. destruct (start _ _ _ _) as [[d os] a]. injection G1 as G0 <-.
      split; [exact A'|]. split; [unfold t0; rewrite <- G0; cbn [g_tasks]; unfold Gateway.set_pc; rewrite nth_snoc, Nat.eqb_refl; cbn [gt_call]; rewrite upd_snoc, app_length; cbn [length]; lia|]. split; [exists c; apply in_or_app; right; rewrite O2, ystamp_app, gw_app, gw_of_g; apply in_or_app; left; left; reflexivity|].
      intros n r R. apply in_app_or in R as [R|R].
      { exfalso. apply (fun_ret _ _ _ XG) in R. lia. }
      apply in_snd in R. assert (A2 : dget Nat.eqb t0 (y_sends (add_send t0 j v s1)) = Some (j, v)) by (cbn [add_send y_sends]; rewrite E4; exact A').
      assert (W2 : nth_error (n_tasks (y_n (add_send t0 j v s1) j)) v = Some (mkNT (NReq h tmo) NSending)).
      { cbn [add_send y_n]. unfold node_go in N1. cbn [nstep] in N1. destruct (add_session h (n_w (y_n s j))) as [f w]. injection N1 as <- _. cbn. rewrite Nat.eqb_refl. cbn. rewrite nth_error_app2, Nat.sub_diag by (unfold v; lia). reflexivity. }
      destruct (gw_sent _ _ _ _ _ _ _ _ _ _ _ G R A2 W2) as (r' & Q). exists (y_now s), r'. apply in_or_app. right. apply NO. exact Q.
Qed.

(** ** alive *)
Lemma gw_goes e s g os : gstep ord (y_g s) e = Some (g, os) -> exists s' xs, gw_go ord e s = Some (s', xs) /\ y_g s' = g /\ forall n, on_gw (ystamp n xs) = gstamp n os.
Proof.
  intros G. unfold gw_go. rewrite G. destruct (settle os (set_mail (y_mail s ++ mails os) (set_g g s))) as [s1 nos] eqn:S. destruct (settle_spec 0 _ _ _ _ S) as (A & _ & _ & _ & _ & AN & _).
  exists s1, (map YG os ++ nos). split; [reflexivity|]. split; [exact A|]. intros n. rewrite ystamp_app, gw_app, gw_of_g, (nodes_gw _ _ AN), app_nil_r. reflexivity.
Qed.
Lemma ygw_goes e s g os : (forall dt, e <> GAdvance dt) -> gstep ord (y_g s) e = Some (g, os) -> exists s' xs, ystep s (YGw e) = Some (s', xs) /\ y_g s' = g /\ forall n, on_gw (ystamp n xs) = gstamp n os.
Proof. intros NA G. destruct (gw_goes _ _ _ _ G) as (s' & xs & A & B). exists s', xs. split; [|exact B]. destruct e; try exact A. destruct (NA dt). reflexivity. Qed.
Lemma gw_can e s : (forall dt, e <> GAdvance dt) -> gstep ord (y_g s) e <> None -> ystep s (YGw e) <> None.
Proof. intros NA G. destruct (gstep ord (y_g s) e) as [[g os]|] eqn:E; [|congruence]. destruct (ygw_goes _ _ _ _ NA E) as (s' & xs & A & _). congruence. Qed.
Lemma advances s dt : 0 <= dt -> exists s', ystep s (YAdvance dt) = Some (s', []) /\ gstep ord (y_g s) (GAdvance dt) = Some (y_g s', []) /\ forall i, nstep (y_n s i) (NEvAdvance dt) = Some (y_n s' i, []).
Proof.
  intros P. apply Z.leb_le in P. cbn [SystemM.ystep gstep]. rewrite P. eexists. split; [reflexivity|]. split; [reflexivity|]. intros i. cbn [y_n nstep]. rewrite P. reflexivity.
Qed.
Lemma not_back tr i u : unanswered tr i u -> forall n r, ~ In (n, NRet u r) (on_node i tr). Proof. intros U n r J. apply in_node in J. exact (U _ _ J). Qed.
Lemma runs_of n u c tr : In (n, NCall u c) tr -> (forall m r, ~ In (m, NRet u r) tr) -> nrunning tr u. Proof. intros J R. split; eauto. Qed.
Lemma alive es s tr k i u t cmd stmo : yexec sys0 es s tr -> In (k, YUse i u t cmd stmo) tr -> unanswered tr i u ->
  (forall r, ystep s (YGw (GEnv t r)) <> None) \/
  (exists l v, made (on_gw tr) t l v /\ running (on_link l (on_gw tr)) v /\ forall dt, allowance (on_link l (on_gw tr)) v <= dt ->
     exists s', ystep s (YAdvance dt) = Some (s', []) /\ (ystep s' (YGw (GConn l (EvTimer v))) <> None \/ ystep s' (YGw (GConn l (EvResume v))) <> None)) \/
  exists h tmo T, In (k, YN i (NCall u (NReq h tmo))) tr /\ In (T, YN i (NSent u (Ok true))) tr /\ forall dt, 0 <= dt -> T + Z.max 0 tmo <= y_now s + dt ->
     exists s', ystep s (YAdvance dt) = Some (s', []) /\ (ystep s' (YNode i (NEvTimer u)) <> None \/ ystep s' (YNode i (NEvResume u)) <> None).
Proof.
  intros X J U. destruct (sends_exec _ _ _ X _ _ _ _ _ _ J) as (_ & _ & (c & C) & R). destruct (proj1 (use_once _ _ _ _ X) _ _ _ _ _ _ J) as (h & tmo & NC). pose proof NC as NC'. apply in_node in NC'.
  destruct (v_gw _ _ _ (yexec_inv _ _ _ _ X)) as (ges & XG). destruct (v_node _ _ _ (yexec_inv _ _ _ _ X) i) as (nes & XN & NW & RO). pose proof (not_back _ _ _ U) as NR.
  destruct (NodeLive.alive _ _ _ _ _ _ XN NC' (runs_of _ _ _ _ NC' NR)) as [(_ & NS & _)|(T & W & G)].
  - assert (O : open_task (on_gw tr) t) by (split; [eauto|]; intros n r Q; destruct (R _ _ Q) as (T & r' & Q'); exact (NS _ _ Q')).
    destruct (GatewayLive.alive _ _ _ _ _ XG O) as [A|(l & v & M & RU & A)].
    + left. intros r. apply gw_can; [discriminate|apply A].
    + right. left. exists l, v. split; [exact M|]. split; [exact RU|]. intros dt L. destruct (A dt L) as (g & A1 & A2).
      assert (P : 0 <= dt) by (cbn [gstep] in A1; destruct (Z.leb_spec 0 dt); [assumption|discriminate]). destruct (advances s dt P) as (s' & B1 & B2 & _). rewrite A1 in B2. injection B2 as ->.
      exists s'. split; [exact B1|]. destruct A2 as [A2|A2]; [left|right]; (apply gw_can; [discriminate|exact A2]).
  - right. right. exists h, tmo, T. split; [exact NC|]. split; [apply in_node; exact W|]. intros dt P L. cbn [patience] in G. rewrite NW in G. destruct (G dt P L) as (n & G1 & G2). destruct (advances s dt P) as (s' & B1 & _ & B2). rewrite (B2 i) in G1. injection G1 as <-.
    exists s'. split; [exact B1|]. unfold npossible in G2. cbn [SystemM.ystep]. destruct G2 as [G2|G2]; [left|right]; (destruct (nstep (y_n s' i) _); [discriminate|congruence]).
Qed.

(** ** it ends *)
Definition lift_g (e : gevent) : yevent := match e with GAdvance dt => YAdvance dt | _ => YGw e end.
Definition lift_n (i : nat) (e : nevent) : yevent := match e with NEvAdvance dt => YAdvance dt | _ => YNode i e end.
Lemma lifted_gw s : forall es g tr, gexec ord (y_g s) es g tr -> exists s' ytr, yexec s (map lift_g es) s' ytr /\ y_g s' = g /\ on_gw ytr = tr.
Proof.
  induction 1 as [|es g tr e g' os X (s1 & ytr & IH & EG & ET) ST]; [exists s, []; split; [constructor|auto]|]. subst g tr. rewrite map_app.
  assert (Q : exists s' xs, ystep s1 (lift_g e) = Some (s', xs) /\ y_g s' = g' /\ forall n, on_gw (ystamp n xs) = gstamp n os).
  { destruct e as [dt| | | |]; try (apply ygw_goes; [discriminate|exact ST]). assert (P : 0 <= dt) by (cbn [gstep] in ST; destruct (Z.leb_spec 0 dt); [assumption|discriminate]).
    destruct (advances s1 dt P) as (s' & B1 & B2 & _). rewrite B2 in ST. injection ST as <- <-. exists s', []. auto. }
  destruct Q as (s' & xs & Q1 & Q2 & Q3). exists s', (ytr ++ ystamp (y_now s1) xs). split; [econstructor; eassumption|]. split; [exact Q2|]. rewrite gw_app, Q3. reflexivity.
Qed.
Lemma lifted_node u i s : n_now (y_n s i) = y_now s -> forall es n tr, nexec (y_n s i) es n tr -> Forall (fun e => nown u e = true \/ exists dt, e = NEvAdvance dt) es ->
  exists s' ytr, yexec s (map (lift_n i) es) s' ytr /\ y_n s' i = n /\ on_node i ytr = tr /\ n_now (y_n s' i) = y_now s'.
Proof.
  intros NW. induction 1 as [|es n tr e n' os X IH ST]; intros F; [exists s, []; split; [constructor|auto]|]. apply Forall_app in F as [F FE]. apply Forall_inv in FE. destruct (IH F) as (s1 & ytr & IX & EN & ET & NW1). subst n tr. rewrite map_app.
  destruct FE as [FE|(dt & ->)].
  - assert (Q : lift_n i e = YNode i e /\ ystep s1 (YNode i e) = Some (node_go i e s1) /\ runs_on e /\ forall dt, e <> NEvAdvance dt).
    { destruct e; try discriminate FE; (split; [reflexivity|]); (split; [|split; [exact I|discriminate]]); cbn [SystemM.ystep]; rewrite ST; reflexivity. }
    destruct Q as (Q1 & Q2 & RO & NA). unfold node_go in Q2. rewrite ST in Q2. exists (set_n i n' s1), (ytr ++ ystamp (y_now s1) (map (YN i) os)). split; [econstructor; [exact IX|cbn [map]; rewrite Q1; exact Q2]|].
    cbn [set_n y_n]. rewrite Nat.eqb_refl. split; [reflexivity|]. split; [rewrite node_app, node_of_n, <- NW1; reflexivity|]. rewrite (now_step _ _ _ _ ST NA). exact NW1.
  - assert (P : 0 <= dt) by (cbn [nstep] in ST; destruct (Z.leb_spec 0 dt); [assumption|discriminate]). destruct (advances s1 dt P) as (s' & B1 & B2 & B3). rewrite (B3 i) in ST. injection ST as <- <-.
    exists s', (ytr ++ ystamp (y_now s1) []). split; [econstructor; [exact IX|exact B1]|]. split; [reflexivity|]. split; [rewrite node_app; reflexivity|].
    pose proof (B3 i) as B4. cbn [nstep] in B4. apply Z.leb_le in P. rewrite P in B4. injection B4 as B4. rewrite <- B4. cbn [n_now]. rewrite NW1. cbn [gstep] in B2. rewrite P in B2. injection B2 as B2. unfold y_now, g_now. rewrite <- B2. cbn [g_d d_c]. unfold tick. cbn [step]. rewrite P. reflexivity.
Qed.
Lemma ends_waiting es s tr k i u h tmo T : yexec sys0 es s tr -> In (k, YN i (NCall u (NReq h tmo))) tr -> unanswered tr i u -> In (T, YN i (NSent u (Ok true))) tr ->
  exists es2 s2 tr2 m r, yexec s es2 s2 tr2 /\ Forall (fun e => match e with YAdvance _ => True | YNode j ne => j = i /\ nown u ne = true | _ => False end) es2 /\ In (m, YN i (NRet u r)) tr2.
Proof.
  intros X NC U S. apply in_node in NC. apply in_node in S. destruct (v_node _ _ _ (yexec_inv _ _ _ _ X) i) as (nes & XN & NW & RO). pose proof (not_back _ _ _ U) as NR.
  destruct (NodeLive.ends _ _ _ _ _ _ T XN NC (runs_of _ _ _ _ NC NR) S) as (es2 & n2 & tr2 & m & r & X2 & F & R). destruct (lifted_node u i s NW _ _ _ X2 F) as (s2 & ytr & Y & _ & Q & _).
  exists (map (lift_n i) es2), s2, ytr, m, r. split; [exact Y|]. split; [|apply in_node; rewrite Q; exact R]. apply Forall_forall. intros e J. apply in_map_iff in J as (ne & <- & J). rewrite Forall_forall in F. destruct (F _ J) as [O|(dt & ->)]; [|exact I].
  destruct ne; try discriminate O; (split; [reflexivity|exact O]).
Qed.
Lemma returned_dec tr i u : unanswered tr i u \/ exists n r, In (n, YN i (NRet u r)) tr.
Proof.
  induction tr as [|[k o] tr [IH|(n & r & IH)]]; [left; intros n r []| |right; exists n, r; right; exact IH].
  assert (O : (exists r, o = YN i (NRet u r)) \/ forall r, o <> YN i (NRet u r)).
  { destruct o as [| |j [| | |v r]|]; try (right; discriminate). destruct (Nat.eq_dec j i) as [->|]; [destruct (Nat.eq_dec v u) as [->|]|]; [left; eauto|right; congruence|right; congruence]. }
  destruct O as [(r & ->)|O]; [right; exists k, r; left; reflexivity|]. left. intros n r [J|J]; [injection J as _ J; exact (O _ J)|exact (IH _ _ J)].
Qed.
Lemma own_env es j t r : nth_error (map lift_g es) j = Some (YGw (GEnv t r)) -> nth_error es j = Some (GEnv t r).
Proof. rewrite nth_error_map. destruct (nth_error es j) as [e|]; [|discriminate]. cbn. intros E. destruct e; cbn in E; congruence. Qed.
Lemma ends es s tr k i u t cmd stmo net : yexec sys0 es s tr -> In (k, YUse i u t cmd stmo) tr -> unanswered tr i u ->
  exists es2 s2 tr2 m r, yexec s es2 s2 tr2 /\ Forall (aids i u t (tr ++ tr2)) es2 /\ yanswers net es2 /\ In (m, YN i (NRet u r)) tr2.
Proof.
  intros X J U. destruct (proj1 (use_once _ _ _ _ X) _ _ _ _ _ _ J) as (h & tmo & NC). pose proof (in_node i k (NCall u (NReq h tmo)) tr) as [_ NC']. specialize (NC' NC).
  assert (LOCAL : forall (e : yevent) tr', match e with YAdvance _ => True | YNode j ne => j = i /\ nown u ne = true | _ => False end -> aids i u t tr' e) by (intros [] tr' Q; try destruct Q; cbn; auto).
  assert (NOENV : forall es2, Forall (fun e => match e with YAdvance _ => True | YNode j ne => j = i /\ nown u ne = true | _ => False end) es2 -> forall j t' r, nth_error es2 j <> Some (YGw (GEnv t' r))) by (intros es2 F j t' r Q; apply nth_error_In in Q; rewrite Forall_forall in F; exact (F _ Q)).
  destruct (v_gw _ _ _ (yexec_inv _ _ _ _ X)) as (ges & XG). destruct (v_node _ _ _ (yexec_inv _ _ _ _ X) i) as (nes & XN & NW & RO). pose proof (not_back _ _ _ U) as NR.
  destruct (sends_exec _ _ _ X _ _ _ _ _ _ J) as (_ & _ & (c & C) & R).
  destruct (NodeLive.alive _ _ _ _ _ _ XN NC' (runs_of _ _ _ _ NC' NR)) as [(_ & NS & _)|(T & W & _)].
  - assert (O : open_task (on_gw tr) t) by (split; [eauto|]; intros n r Q; destruct (R _ _ Q) as (T & r' & Q'); exact (NS _ _ Q')).
    destruct (GatewayLive.ends _ _ _ _ _ net XG O) as (ge2 & g2 & gtr2 & n & r & GX & GH & GA & GR). destruct (lifted_gw s _ _ _ GX) as (s1 & tr1 & Y1 & EG & ET). subst g2 gtr2.
    pose proof (yexec_app _ _ _ _ _ X _ _ _ Y1) as X1. assert (J1 : In (k, YUse i u t cmd stmo) (tr ++ tr1)) by (apply in_or_app; auto). destruct (sends_exec _ _ _ X1 _ _ _ _ _ _ J1) as (_ & _ & _ & R1).
    assert (GR1 : In (n, GRet t r) (on_gw (tr ++ tr1))) by (rewrite gw_app; apply in_or_app; auto). destruct (R1 _ _ GR1) as (T & r' & S).
    assert (H1 : forall tr', Forall (aids i u t (tr ++ tr1 ++ tr')) (map lift_g ge2)).
    { intros tr'. apply Forall_forall. intros e Q. apply in_map_iff in Q as (ge & <- & Q). rewrite Forall_forall in GH. specialize (GH _ Q). rewrite <- gw_app in GH.
      assert (GH' : helps t (on_gw (tr ++ tr1 ++ tr')) ge) by (eapply GatewayLive.helps_incl; [|exact GH]; rewrite app_assoc, (gw_app (tr ++ tr1)); apply incl_appl, incl_refl). destruct ge; exact GH'. }
    assert (A1 : yanswers net (map lift_g ge2)) by (intros j t' r0 Q; apply own_env in Q; exact (GA _ _ _ Q)).
    destruct (returned_dec tr1 i u) as [U1|(m & r1 & Q)]; [|exists (map lift_g ge2), s1, tr1, m, r1; split; [exact Y1|]; split; [specialize (H1 []); rewrite app_nil_r in H1; exact H1|auto]].
    assert (U2 : unanswered (tr ++ tr1) i u) by (intros m r1 Q; apply in_app_or in Q as [Q|Q]; [exact (U _ _ Q)|exact (U1 _ _ Q)]).
    assert (NC1 : In (k, YN i (NCall u (NReq h tmo))) (tr ++ tr1)) by (apply in_or_app; auto). destruct (v_node _ _ _ (yexec_inv _ _ _ _ X1) i) as (nes1 & XN1 & NW1 & RO1). pose proof NC1 as NC1'. apply in_node in NC1'.
    destruct (NodeLive.alive _ _ _ _ _ _ XN1 NC1' (runs_of _ _ _ _ NC1' (not_back _ _ _ U2))) as [(_ & NS1 & _)|(T1 & W1 & _)]; [destruct (NS1 _ _ S)|].
    cbn [waits_from] in W1. apply in_node in W1. destruct (ends_waiting _ _ _ _ _ _ _ _ _ X1 NC1 U2 W1) as (es2 & s2 & tr2 & m & r1 & Y2 & F2 & Q2).
    exists (map lift_g ge2 ++ es2), s2, (tr1 ++ tr2), m, r1. split; [exact (yexec_app _ _ _ _ _ Y1 _ _ _ Y2)|]. split; [apply Forall_app; split; [apply H1|]; eapply Forall_impl; [|exact F2]; intros e; apply LOCAL|].
    split; [|apply in_or_app; auto]. intros j t' r0 Q. destruct (Nat.lt_ge_cases j (length (map lift_g ge2))) as [L|L]; [rewrite nth_error_app1 in Q by exact L; exact (A1 _ _ _ Q)|]. rewrite nth_error_app2 in Q by exact L. destruct (NOENV _ F2 _ _ _ Q).
  - cbn [waits_from] in W. apply in_node in W. destruct (ends_waiting _ _ _ _ _ _ _ _ _ X NC U W) as (es2 & s2 & tr2 & m & r1 & Y2 & F2 & Q2). exists es2, s2, tr2, m, r1. split; [exact Y2|].
    split; [eapply Forall_impl; [|exact F2]; intros e; apply LOCAL|]. split; [|exact Q2]. intros j t' r0 Q. destruct (NOENV _ F2 _ _ _ Q).
Qed.

(** ** in time *)
Lemma prompt_y s0 es s tr : prompt_yexec ord s0 es s tr -> yexec s0 es s tr.
Proof. induction 1; econstructor; eassumption. Qed.
Lemma nexec_cut s0 es2 : forall es s tr, nexec s0 (es ++ es2) s tr -> exists s1 tr1 tr2, nexec s0 es s1 tr1 /\ nexec s1 es2 s tr2 /\ tr = tr1 ++ tr2.
Proof.
  induction es2 as [|e es2 IH] using rev_ind; intros es s tr X; [rewrite app_nil_r in X; exists s, tr, []; split; [exact X|]; split; [constructor|rewrite app_nil_r; reflexivity]|].
  rewrite app_assoc in X. inversion X as [Q|es' s' tr' e' s'' os X' ST Q]; [destruct (es ++ es2); discriminate|]. apply app_inj_tail in Q as [-> ->]. subst. destruct (IH _ _ _ X') as (s1 & tr1 & tr2 & A & B & ->).
  exists s1, tr1, (tr2 ++ nstamp (n_now s') os). split; [exact A|]. split; [econstructor; eassumption|]. rewrite app_assoc. reflexivity.
Qed.
Lemma nexec_det s0 es : forall s tr s' tr', nexec s0 es s tr -> nexec s0 es s' tr' -> s = s' /\ tr = tr'.
Proof.
  induction es as [|e es IH] using rev_ind; intros s tr s' tr' X Y.
  - inversion X as [|? ? ? ? ? ? ? ? Q]; [|destruct es; discriminate]. inversion Y as [|? ? ? ? ? ? ? ? Q]; [|destruct es; discriminate]. subst. auto.
  - inversion X as [Q|es1 s1 tr1 e1 s1' os1 X1 ST1 Q1]; [destruct es; discriminate|]. inversion Y as [Q|es2 s2 tr2 e2 s2' os2 X2 ST2 Q2]; [destruct es; discriminate|]. apply app_inj_tail in Q1 as [-> ->]. apply app_inj_tail in Q2 as [-> ->]. subst.
    destruct (IH _ _ _ _ X1 X2) as [-> ->]. rewrite ST1 in ST2. injection ST2 as <- <-. auto.
Qed.
Lemma nexec_time s0 es s tr : nexec s0 es s tr -> n_now s0 <= n_now s.
Proof. induction 1 as [|es s tr e s' os X IH ST]; [lia|]. destruct (step_tasks _ _ _ _ ST) as (_ & _ & _ & _ & _ & _ & _ & T & _). lia. Qed.
Lemma at_once s0 es s tr : nexec s0 es s tr -> n_now s = n_now s0 -> nprompt s0 es s tr.
Proof.
  induction 1 as [|es s tr e s' os X IH ST]; intros T; [constructor|]. destruct (step_tasks _ _ _ _ ST) as (_ & _ & _ & _ & _ & _ & _ & L & _). pose proof (nexec_time _ _ _ _ X). econstructor; [apply IH; lia|exact ST|].
  intros dt d t -> D. cbn [nstep] in ST. destruct (0 <=? dt); [|discriminate]. injection ST as <- _. cbn in T. lia.
Qed.
Lemma prompt_parts es s tr : prompt_yexec ord sys0 es s tr -> (exists ges, prompt_gexec ord gw0 ges (y_g s) (on_gw tr)) /\ forall i, exists nes, nprompt nstate0 nes (y_n s i) (on_node i tr).
Proof.
  induction 1 as [|es s tr e s' os X [[ges IG] IN] ST PR]; [split; [exists []; constructor|intros i; exists []; constructor]|].
  pose proof (yexec_inv _ _ _ _ (prompt_y _ _ _ _ X)) as [_ [aes XA] VN _ _ _ _].
  assert (ADV : (exists dt, e = YAdvance dt) \/ forall dt, e <> YAdvance dt) by (destruct e; [left; eauto|right; discriminate..]). destruct ADV as [[dt ->]|NA].
  - destruct (PR dt eq_refl) as (P1 & P2 & P3). assert (P : 0 <= dt) by (cbn [SystemM.ystep gstep] in ST; destruct (Z.leb_spec 0 dt); [assumption|discriminate]). destruct (advances s dt P) as (s1 & B1 & B2 & B3). rewrite B1 in ST. injection ST as <- <-.
    rewrite gw_app. change (on_gw (ystamp (y_now s) [])) with (gstamp (g_now (y_g s)) []). split; [exists (ges ++ [GAdvance dt]); eapply GR_snoc; [exact IG|exact B2|]; intros dt' Q; injection Q as <-; auto|]. intros i. destruct (IN i) as (nes & IN'). exists (nes ++ [NEvAdvance dt]). rewrite node_app.
    change (on_node i (ystamp (y_now s) [])) with (nstamp (n_now (y_n s i)) []). eapply NR_snoc; [exact IN'|apply B3|]. intros dt' d v Q D. injection Q as <-. apply P3. exact D.
  - destruct (ystep_move _ _ _ _ _ _ _ XA NA ST) as [MV (p & gos & aos & nos & EO & AN & PP & PG & _)].
    assert (OG : on_gw (ystamp (y_now s) os) = gstamp (g_now (y_g s)) gos) by (rewrite EO, !ystamp_app, !gw_app, gw_of_g, gw_of_a, (nodes_gw _ _ AN), (proj1 (PP _)), !app_nil_r; reflexivity).
    split.
    + rewrite gw_app, OG. destruct PG as [[EQ ->]|(ge & NG & G)]; [exists ges; rewrite EQ; cbn; rewrite app_nil_r; exact IG|]. exists (ges ++ [ge]). eapply GR_snoc; [exact IG|exact G|]. intros dt Q. destruct (NG _ Q).
    + intros i. destruct (IN i) as (nes & IN'). pose proof (NodeLive.prompt_is _ _ _ IN') as XN. destruct (VN i) as (_ & _ & NW & _). destruct (MV i _ _ XN NW) as (es' & X' & T' & _). destruct (nexec_cut _ _ _ _ _ X') as (s1 & tr1 & tr2 & A & B & C).
      destruct (nexec_det _ _ _ _ _ _ A XN) as [-> ->]. rewrite node_app, C. exists (nes ++ es'). eapply NodeLive.nprompt_app; [exact IN'|]. apply at_once; [exact B|congruence].
Qed.
(** the end of the sending is known at once *)
Lemma sent_when es s tr : yexec sys0 es s tr -> forall T i u r, In (T, YN i (NSent u r)) tr -> exists t x k cmd stmo, In (k, YUse i u t cmd stmo) tr /\ In (T, GRet t x) (on_gw tr).
Proof.
  induction 1 as [|es s tr e s' os X IH ST]; intros T i u r J; [destruct J|]. apply in_app_or in J as [J|J].
  - destruct (IH _ _ _ _ J) as (t & x & k & cmd & stmo & A & B). exists t, x, k, cmd, stmo. rewrite gw_app. split; apply in_or_app; auto.
  - apply in_ystamp in J as [-> J]. pose proof (yexec_inv _ _ _ _ X) as [_ [aes XA] _ _ _ _ _].
    assert (NA : forall dt, e <> YAdvance dt).
    { intros dt ->. cbn [SystemM.ystep] in ST. destruct (gstep ord (y_g s) (GAdvance dt)) as [[g go]|]; [|discriminate]. injection ST as _ <-. destruct J. }
    assert (X' : yexec sys0 (es ++ [e]) s' (tr ++ ystamp (y_now s) os)) by (econstructor; eassumption). pose proof (v_sends _ _ _ (yexec_inv _ _ _ _ X')) as VS'.
    destruct (ystep_move _ _ _ _ _ _ _ XA NA ST) as [_ (p & gos & aos & nos & EO & AN & PP & PG & PA & PM & PS & P1 & P2 & P3 & P4)].
    assert (JN : In (YN i (NSent u r)) nos).
    { rewrite EO in J. apply in_app_or in J as [J|J]; [destruct (P1 _ _ _ J)|]. apply in_app_or in J as [J|J]; [apply in_map_iff in J as (? & ? & _); discriminate|]. apply in_app_or in J as [J|J]; [apply in_map_iff in J as (? & ? & _); discriminate|exact J]. }
    destruct (P3 _ _ _ JN) as (t & x & G & S & _). destruct (VS' _ _ _ S) as (o & cmd & stmo & k & k' & _ & U & _). exists t, x, k, cmd, stmo. split; [exact U|]. rewrite gw_app. apply in_or_app. right. apply in_gw, ystamp_in. rewrite EO. apply in_or_app. right. apply in_or_app. left. apply in_map. exact G.
Qed.
Lemma in_time es s tr k i u t cmd stmo h tmo k' : prompt_yexec ord sys0 es s tr -> In (k, YUse i u t cmd stmo) tr -> In (k', YN i (NCall u (NReq h tmo))) tr ->
  (forall m r, In (m, YN i (NRet u r)) tr -> m <= k + total (on_gw tr) t + Z.max 0 tmo) /\ (unanswered tr i u -> y_now s <= k + total (on_gw tr) t + Z.max 0 tmo).
Proof.
  intros P J NC. pose proof (prompt_y _ _ _ _ P) as X. destruct (prompt_parts _ _ _ P) as [(ges & PG) PN]. destruct (PN i) as (nes & PN'). destruct (v_node _ _ _ (yexec_inv _ _ _ _ X) i) as (nes' & XN & NW & RO).
  destruct (sends_exec _ _ _ X _ _ _ _ _ _ J) as (_ & _ & (c & C) & R). destruct (GatewayPrompt.in_time _ _ _ _ _ _ _ PG C) as [G1 G2]. apply in_node in NC.
  assert (SB : forall T r, In (T, NSent u r) (on_node i tr) -> T <= k + total (on_gw tr) t).
  { intros T r S. apply in_node in S. destruct (sent_when _ _ _ X _ _ _ _ S) as (t' & x & k1 & cmd' & stmo' & A & B). destruct (proj2 (use_once _ _ _ _ X) _ _ _ _ _ _ _ _ _ _ J A) as (-> & _). exact (G1 _ _ B). }
  split.
  - intros m r Q. apply in_node in Q. destruct (ret_sent _ _ _ XN RO _ _ _ _ _ _ NC Q) as [(T & S)|(r' & S)].
    + destruct (NodeLive.in_time _ _ _ _ _ _ T PN' NC S) as [N1 _]. specialize (N1 _ _ Q). specialize (SB _ _ S). cbn in N1. lia.
    + specialize (SB _ _ S). lia.
  - intros U. pose proof (not_back _ _ _ U) as NR. destruct (NodeLive.alive _ _ _ _ _ _ XN NC (runs_of _ _ _ _ NC NR)) as [(_ & NS & _)|(T & W & _)].
    + assert (NG : forall m r, ~ In (m, GRet t r) (on_gw tr)) by (intros m r Q; destruct (R _ _ Q) as (T & r' & Q'); exact (NS _ _ Q')). specialize (G2 NG). unfold y_now. lia.
    + destruct (NodeLive.in_time _ _ _ _ _ _ T PN' NC W) as [_ N2]. specialize (N2 NR). cbn [waits_from] in W. specialize (SB _ _ W). cbn in N2. lia.
Qed.

(** ** executable form of prompt runs, for examples; only objects below [b] have requests *)
Fixpoint prompt_yrun_of (b : nat) (s : sys) (es : list yevent) : option (sys * ytrace) :=
  match es with
  | [] => Some (s, [])
  | e :: es' => if match e with YAdvance dt => gidle (y_g s) dt && forallb (fun i => NodeLive.nidle (y_n s i) dt) (seq 0 b) | _ => true end then
      match ystep s e with
      | Some (s', os) => match prompt_yrun_of b s' es' with Some (s'', tr) => Some (s'', ystamp (y_now s) os ++ tr) | None => None end
      | None => None
      end else None
  end.
Definition below (b : nat) (tr : ytrace) : bool := forallb (fun x => match snd x with YN j _ => (j <? b)%nat | _ => true end) tr.
Lemma below_none b tr i : below b tr = true -> (b <= i)%nat -> on_node i tr = [].
Proof.
  intros B L. induction tr as [|[k o] tr IH]; [reflexivity|]. cbn in B. apply andb_prop in B as [B1 B2]. change ((k, o) :: tr) with ([(k, o)] ++ tr). rewrite node_app, (IH B2). destruct o as [| |j o|]; try reflexivity. apply Nat.ltb_lt in B1. cbn. destruct (Nat.eqb_spec j i); [lia|reflexivity].
Qed.
Lemma gidle_ok s dt : gidle s dt = true -> (forall d l k u, 0 <= d < dt -> conn_at l (g_d s) = Some k -> ~ possible (later d k) u) /\ forall t r, gstep ord s (GEnv t r) = None.
Proof.
  intros I. apply andb_prop in I as [I I3]. apply andb_prop in I as [I1 I2]. split.
  - intros d [i|] k u L K; cbn in K; [|injection K as <-; exact (ConnLive.idle_ok _ _ _ _ I1 L)]. exact (ConnLive.idle_ok _ _ _ _ (proj1 (forallb_forall _ _) I2 _ (nth_error_In _ _ K)) L).
  - intros t r. cbn [gstep]. destruct (nth_error (g_tasks s) t) as [[c [w fs|x]]|] eqn:N; [|reflexivity|reflexivity].
    pose proof (proj1 (forallb_forall _ _) I3 _ (nth_error_In _ _ N)) as Q. cbn in Q. destruct w; [reflexivity|discriminate|discriminate].
Qed.
Lemma prompt_yrun_ok b es : forall es0 s tr0 s' tr, prompt_yexec ord sys0 es0 s tr0 -> below b tr0 = true -> prompt_yrun_of b s es = Some (s', tr) -> below b tr = true -> prompt_yexec ord sys0 (es0 ++ es) s' (tr0 ++ tr).
Proof.
  induction es as [|e es IH]; intros es0 s tr0 s' tr X B0 E B; cbn [prompt_yrun_of] in E; [injection E as <- <-; rewrite !app_nil_r; exact X|].
  match type of E with (if ?c then _ else _) = _ => destruct c eqn:I; [|discriminate] end. destruct (ystep s e) as [[s1 os]|] eqn:S; [|discriminate]. destruct (prompt_yrun_of b s1 es) as [[s2 tr2]|] eqn:R; [|discriminate]. injection E as <- <-.
  unfold below in B. rewrite forallb_app in B. apply andb_prop in B as [B1 B2]. change (e :: es) with ([e] ++ es). rewrite !app_assoc. eapply IH; [|unfold below; rewrite forallb_app; apply andb_true_intro; split; [exact B0|exact B1]|exact R|exact B2].
  eapply YR_snoc; [exact X|exact S|]. intros dt ->. apply andb_prop in I as [I1 I2]. destruct (gidle_ok _ _ I1) as [P1 P2]. split; [exact P1|]. split; [intros _; exact P2|]. intros d i u L.
  destruct (Nat.lt_ge_cases i b) as [LI|LI]; [apply (NodeLive.nidle_ok _ dt); [|exact L]; apply (proj1 (forallb_forall _ _) I2); apply in_seq; lia|].
  destruct (v_node _ _ _ (yexec_inv _ _ _ _ (prompt_y _ _ _ _ X)) i) as (nes & XN & _). rewrite (below_none _ _ _ B0 LI) in XN. pose proof (called_told _ _ u (exec_told _ _ _ XN)) as Q.
  assert (N : nth_error (n_tasks (nlater d (y_n s i))) u = None). { apply nth_error_None. cbn [nlater n_tasks]. symmetry in Q. apply Nat.ltb_ge. exact Q. }
  unfold npossible. cbn [nstep]. rewrite N. intros [P|P]; apply P; reflexivity.
Qed.
End System.
