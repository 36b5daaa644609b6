(** The parts of SystemM.v behave as they do alone; what a node's request returns was sent by that node. *)
From Coq Require Import String ZArith List Bool Lia.
From Verif Require Import Py BitStream Schema Registry Codec SpecBits BitLemmas DecodeLemmas DecodeProofs ByteReader HeaderProofs ReportProofs SpecFields Waiter Conn SpecConn ConnLemmas ConnCut.
From Verif Require Import Gateway SpecGateway GatewayProofs GatewayStory GatewayNode GatewayUnsol GatewayLinks GatewayPrompt NodeSendM NodeReq SpecNodeReq NodeReqProofs NodeM NodeFresh SystemM SpecSystem SystemFrom.
From Verif Require AppM SpecApp AppProofs AppRoute.
Import ListNotations.
Open Scope list_scope.
Open Scope string_scope.
Open Scope list_scope.
Open Scope Z_scope.

(** ** Projections *)
Lemma gw_app a b : on_gw (a ++ b) = on_gw a ++ on_gw b. Proof. apply flat_map_app. Qed.
Lemma node_app i a b : on_node i (a ++ b) = on_node i a ++ on_node i b. Proof. apply flat_map_app. Qed.
Lemma app_app a b : on_app (a ++ b) = on_app a ++ on_app b. Proof. apply flat_map_app. Qed.
Lemma ystamp_app n a b : ystamp n (a ++ b) = ystamp n a ++ ystamp n b. Proof. apply map_app. Qed.
Lemma gw_of_g n os : on_gw (ystamp n (map YG os)) = gstamp n os. Proof. induction os as [|o os IH]; [reflexivity|]. cbn. f_equal. exact IH. Qed.
Lemma gw_of_n n i os : on_gw (ystamp n (map (YN i) os)) = []. Proof. induction os; auto. Qed.
Lemma gw_of_a n os : on_gw (ystamp n (map YA os)) = []. Proof. induction os; auto. Qed.
Lemma node_of_g n i os : on_node i (ystamp n (map YG os)) = []. Proof. induction os; auto. Qed.
Lemma node_of_a n i os : on_node i (ystamp n (map YA os)) = []. Proof. induction os; auto. Qed.
Lemma node_of_n n i os : on_node i (ystamp n (map (YN i) os)) = nstamp n os. Proof. induction os as [|o os IH]; [reflexivity|]. cbn. rewrite Nat.eqb_refl. cbn. f_equal. exact IH. Qed.
Lemma node_of_other n i j os : j <> i -> on_node i (ystamp n (map (YN j) os)) = [].
Proof. intros N. induction os as [|o os IH]; [reflexivity|]. cbn. destruct (Nat.eqb_spec j i); [contradiction|]. exact IH. Qed.
Lemma app_of_g n os : on_app (ystamp n (map YG os)) = []. Proof. induction os; auto. Qed.
Lemma app_of_n n i os : on_app (ystamp n (map (YN i) os)) = []. Proof. induction os; auto. Qed.
Lemma app_of_a n os : on_app (ystamp n (map YA os)) = os. Proof. induction os as [|o os IH]; [reflexivity|]. cbn. f_equal. exact IH. Qed.
Lemma in_gw k o tr : In (k, o) (on_gw tr) <-> In (k, YG o) tr.
Proof.
  unfold on_gw. rewrite in_flat_map. split.
  - intros ([k' []] & J & I); try destruct I as [I|[]]; try (destruct I; fail). injection I as <- <-. exact J.
  - intros J. exists (k, YG o). split; [exact J|]. left. reflexivity.
Qed.
Lemma in_node i k o tr : In (k, o) (on_node i tr) <-> In (k, YN i o) tr.
Proof.
  unfold on_node. rewrite in_flat_map. split.
  - intros ([k' []] & J & I); try (destruct I; fail). destruct (Nat.eqb_spec i0 i) as [->|]; [|destruct I]. destruct I as [I|[]]. injection I as <- <-. exact J.
  - intros J. exists (k, YN i o). split; [exact J|]. rewrite Nat.eqb_refl. left. reflexivity.
Qed.
Lemma in_app_of o tr : In o (on_app tr) <-> exists k, In (k, YA o) tr.
Proof.
  unfold on_app. rewrite in_flat_map. split.
  - intros ([k' []] & J & I); try (destruct I; fail). destruct I as [I|[]]. subst. eauto.
  - intros (k & J). exists (k, YA o). split; [exact J|]. left. reflexivity.
Qed.
Lemma node_cut i tr : forall a x b, on_node i tr = a ++ x :: b -> exists a' b', tr = a' ++ (fst x, YN i (snd x)) :: b' /\ on_node i a' = a /\ on_node i b' = b.
Proof.
  induction tr as [|[k o] tr IH]; intros a x b E; [destruct a; discriminate|].
  change ((k, o) :: tr) with ([(k, o)] ++ tr) in *. rewrite node_app in E.
  assert (S : on_node i [(k, o)] = [] -> exists a' b', [(k, o)] ++ tr = a' ++ (fst x, YN i (snd x)) :: b' /\ on_node i a' = a /\ on_node i b' = b).
  { intros S. rewrite S in E. destruct (IH _ _ _ E) as (a' & b' & -> & A & B). exists ((k, o) :: a'), b'. split; [reflexivity|]. split; [|exact B]. change ((k, o) :: a') with ([(k, o)] ++ a'). rewrite node_app, S. exact A. }
  destruct o as [|?|j o|]; try (apply S; reflexivity). destruct (Nat.eqb_spec j i) as [->|N]; [|apply S; cbn; destruct (Nat.eqb_spec j i); [contradiction|reflexivity]].
  clear S. cbn in E. rewrite Nat.eqb_refl in E. cbn in E. destruct a as [|y a].
  - injection E as <- <-. exists [], tr. auto.
  - injection E as <- E. destruct (IH _ _ _ E) as (a' & b' & -> & A & B). exists ((k, YN i o) :: a'), b'. split; [reflexivity|]. split; [|exact B]. change ((k, YN i o) :: a') with ([(k, YN i o)] ++ a'). rewrite node_app, A. cbn. rewrite Nat.eqb_refl. reflexivity.
Qed.

Section System.
Variable ord : list Z -> list Z.
Notation yexec := (yexec ord).
Notation ystep := (ystep ord).

(** ** Each step is one step, or none, of the gateway and of the application, and some of each node object *)
Definition same_time (s : sys) : Prop := forall i, n_now (y_n s i) = y_now s.
(** the steps of node object [i] within a step at time [now]; nothing is cancelled *)
Definition runs_on (e : nevent) : Prop := match e with NEvCancel _ => False | _ => True end.
Definition moves (now : Z) (i : nat) (n n' : nstate) (os : list yobs) : Prop := forall es tr, nexec nstate0 es n tr -> n_now n = now ->
  exists es', nexec nstate0 (es ++ es') n' (tr ++ on_node i (ystamp now os)) /\ n_now n' = now /\ Forall runs_on es'.
Lemma moves_refl now i n : moves now i n n []. Proof. intros es tr X E. exists []. rewrite !app_nil_r. auto. Qed.
Lemma moves_trans now i a b c o1 o2 : moves now i a b o1 -> moves now i b c o2 -> moves now i a c (o1 ++ o2).
Proof.
  intros A B es tr X E. destruct (A es tr X E) as (e1 & X1 & E1 & R1). destruct (B _ _ X1 E1) as (e2 & X2 & E2 & R2). exists (e1 ++ e2). rewrite ystamp_app, node_app, !app_assoc in *. split; [exact X2|]. split; [exact E2|]. apply Forall_app. auto.
Qed.
Lemma moves_quiet now i n os : on_node i (ystamp now os) = [] -> moves now i n n os.
Proof. intros Q es tr X E. exists []. rewrite Q, !app_nil_r. auto. Qed.
Lemma now_step n e n' os : nstep n e = Some (n', os) -> (forall dt, e <> NEvAdvance dt) -> n_now n' = n_now n.
Proof.
  assert (F : forall t r s s' o, n_finish t r s = (s', o) -> n_now s' = n_now s).
  { intros t r s s' o E. unfold n_finish in E. injection E as <- <-. unfold n_setpc. destruct (nth_error _ t); reflexivity. }
  assert (P : forall t p s, n_now (n_setpc t p s) = n_now s) by (intros t p s; unfold n_setpc; destruct (nth_error _ t); reflexivity).
  assert (W : forall t h tmo s, n_now (n_wait t h tmo s) = n_now s).
  { intros t h tmo s. unfold n_wait. destruct (add_session h (n_w s)) as [f w]. destruct (0 <? tmo); [rewrite P; reflexivity|]. destruct (nth_error (w_futs w) f) as [[]|]; rewrite P; reflexivity. }
  intros E N. destruct e; cbn [nstep] in E.
  - destruct (N dt). reflexivity.
  - destruct c; [destruct (add_session h (n_w n)); injection E as <- <-; reflexivity|injection E as <- <-; rewrite W; reflexivity].
  - destruct (nth_error (n_tasks n) t) as [[[h tmo|h tmo] []]|]; try discriminate. destruct r as [[]|].
    + injection E as <- <-. apply W.
    + destruct (n_finish t (RExc ETimeout) n) as [s1 o] eqn:Q. injection E as <- <-. exact (F _ _ _ _ _ Q).
    + destruct (n_finish t (RExc e) n) as [s1 o] eqn:Q. injection E as <- <-. exact (F _ _ _ _ _ Q).
  - destruct m; try discriminate. destruct (message_received _ (n_w n)) as [w r]. injection E as <- <-. reflexivity.
  - destruct (nth_error (n_tasks n) t) as [[c [|h f dl []| |]]|]; try discriminate. destruct (dl <=? n_now n); [|discriminate]. injection E as <- <-. apply P.
  - destruct (nth_error (n_tasks n) t) as [[c [|h f dl ph|h f|]]|]; try discriminate.
    + unfold n_resume in E. destruct (nth_error (w_futs (n_w n)) f) as [[]|], ph; try discriminate; try (match type of E with Some (n_finish ?a ?b ?c) = _ => destruct (n_finish a b c) as [s1 o] eqn:Q; injection E as <- <-; rewrite (F _ _ _ _ _ Q); reflexivity end).
      injection E as <- <-. rewrite P. reflexivity.
    + match type of E with Some (n_finish ?a ?b ?c) = _ => destruct (n_finish a b c) as [s1 o] eqn:Q; injection E as <- <-; rewrite (F _ _ _ _ _ Q); reflexivity end.
  - destruct (nth_error (n_tasks n) t) as [[c [|h f dl ph|h f|]]|]; try discriminate.
    + match type of E with Some (n_finish ?a ?b ?c) = _ => destruct (n_finish a b c) as [s1 o] eqn:Q; injection E as <- <-; rewrite (F _ _ _ _ _ Q); reflexivity end.
    + injection E as <- <-. rewrite P. reflexivity.
Qed.
Lemma node_go_spec i e s s' os now : runs_on e -> (forall dt, e <> NEvAdvance dt) -> node_go i e s = (s', os) ->
  y_g s' = y_g s /\ y_a s' = y_a s /\ y_mail s' = y_mail s /\ y_sends s' = y_sends s /\ (forall j, moves now j (y_n s j) (y_n s' j) os) /\
  (os = [] \/ exists n xs, nstep (y_n s i) e = Some (n, xs) /\ os = map (YN i) xs).
Proof.
  intros RO NA E. unfold node_go in E. destruct (nstep (y_n s i) e) as [[n xs]|] eqn:ST; injection E as <- <-.
  - repeat (split; [reflexivity|]). split; [|eauto]. intros j. cbn [y_n set_n]. destruct (Nat.eqb_spec j i) as [->|N].
    + intros es tr X T. exists [e]. rewrite node_of_n. split; [rewrite <- T; econstructor; eassumption|]. split; [rewrite (now_step _ _ _ _ ST NA); exact T|auto].
    + apply moves_quiet. apply node_of_other. auto.
  - repeat (split; [reflexivity|]). split; [|auto]. intros j. apply moves_refl.
Qed.
(** observations at node objects only *)
Definition at_nodes (os : list yobs) : Prop := Forall (fun o => match o with YN _ _ => True | _ => False end) os.
Lemma at_nodes_map i xs : at_nodes (map (YN i) xs). Proof. apply Forall_forall. intros x J. apply in_map_iff in J as (? & <- & _). exact I. Qed.
Lemma nodes_gw n os : at_nodes os -> on_gw (ystamp n os) = []. Proof. induction 1 as [|o os O _ IH]; [reflexivity|]. destruct o; try destruct O. exact IH. Qed.
Lemma nodes_app n os : at_nodes os -> on_app (ystamp n os) = []. Proof. induction 1 as [|o os O _ IH]; [reflexivity|]. destruct o; try destruct O. exact IH. Qed.
Lemma settle_spec now os : forall s s' xs, settle os s = (s', xs) ->
  y_g s' = y_g s /\ y_a s' = y_a s /\ y_mail s' = y_mail s /\ y_sends s' = y_sends s /\ (forall j, moves now j (y_n s j) (y_n s' j) xs) /\ at_nodes xs /\
  (forall i o, In (YN i o) xs -> exists t r u, In (GRet t r) os /\ dget Nat.eqb t (y_sends s) = Some (i, u) /\ (o = NSent u (sent_result r) \/ exists x, o = NRet u x /\ forall m, x <> RMsg m)).
Proof.
  induction os as [|g os IH]; intros s s' xs E.
  { injection E as <- <-. repeat (split; [reflexivity|]). split; [intros; apply moves_refl|]. split; [constructor|intros i o []]. }
  assert (SK : settle os s = (s', xs) -> y_g s' = y_g s /\ y_a s' = y_a s /\ y_mail s' = y_mail s /\ y_sends s' = y_sends s /\ (forall j, moves now j (y_n s j) (y_n s' j) xs) /\ at_nodes xs /\
    (forall i o, In (YN i o) xs -> exists t r u, In (GRet t r) (g :: os) /\ dget Nat.eqb t (y_sends s) = Some (i, u) /\ (o = NSent u (sent_result r) \/ exists x, o = NRet u x /\ forall m, x <> RMsg m))).
  { intros Q. destruct (IH _ _ _ Q) as (A & B & C & D & F & G & H). repeat (split; [assumption|]). intros i o J. destruct (H i o J) as (t & r & u & I1 & I2). exists t, r, u. split; [right; exact I1|exact I2]. }
  destruct g; try exact (SK E). cbn [settle] in E. destruct (dget Nat.eqb t (y_sends s)) as [[i u]|] eqn:D; [|exact (SK E)].
  destruct (node_go i (NEvSent u (sent_result r)) s) as [s1 o1] eqn:E1. destruct (settle os s1) as [s2 o2] eqn:E2. injection E as <- <-.
  destruct (node_go_spec i (NEvSent u (sent_result r)) s s1 o1 now I ltac:(discriminate) E1) as (A & B & C & S & M & Q). destruct (IH _ _ _ E2) as (A' & B' & C' & S' & M' & N' & Q').
  split; [congruence|]. split; [congruence|]. split; [congruence|]. split; [congruence|]. split; [intros j; eapply moves_trans; [apply M|apply M']|].
  split. { apply Forall_app. split; [|exact N']. destruct Q as [->|(n & xs & _ & ->)]; [constructor|apply at_nodes_map]. }
  intros j o J. apply in_app_or in J as [J|J].
  - destruct Q as [->|(n & xs & ST & ->)]; [destruct J|]. apply in_map_iff in J as (o' & X & J). injection X as <- <-. exists t, r, u. split; [left; reflexivity|]. split; [exact D|].
    cbn [nstep] in ST. destruct (nth_error (n_tasks (y_n s i)) u) as [[[h tmo|h tmo] []]|]; try discriminate. destruct (sent_result r) as [[]|e].
    + injection ST as <- <-. destruct J as [<-|[]]. auto.
    + unfold n_finish in ST. injection ST as <- <-. destruct J as [<-|[<-|[]]]; [auto|]. right. eexists. split; [reflexivity|discriminate].
    + unfold n_finish in ST. injection ST as <- <-. destruct J as [<-|[<-|[]]]; [auto|]. right. eexists. split; [reflexivity|discriminate].
  - destruct (Q' j o J) as (t' & r' & u' & I1 & I2 & I3). exists t', r', u'. split; [right; exact I1|]. rewrite S in I2. auto.
Qed.
Lemma handle_spec now os : forall s s' xs, handle_all os s = (s', xs) ->
  y_g s' = y_g s /\ y_a s' = y_a s /\ y_mail s' = y_mail s /\ y_sends s' = y_sends s /\ (forall j, moves now j (y_n s j) (y_n s' j) xs) /\ at_nodes xs /\
  (forall i o, In (YN i o) xs -> exists t m f r, In (AppM.OHandle t i m f) os /\ o = NRecv (unwrap m) r /\ exists c d, unwrap m = VObj c d).
Proof.
  induction os as [|g os IH]; intros s s' xs E.
  { injection E as <- <-. repeat (split; [reflexivity|]). split; [intros; apply moves_refl|]. split; [constructor|intros i o []]. }
  assert (SK : handle_all os s = (s', xs) -> y_g s' = y_g s /\ y_a s' = y_a s /\ y_mail s' = y_mail s /\ y_sends s' = y_sends s /\ (forall j, moves now j (y_n s j) (y_n s' j) xs) /\ at_nodes xs /\
    (forall i o, In (YN i o) xs -> exists t m f r, In (AppM.OHandle t i m f) (g :: os) /\ o = NRecv (unwrap m) r /\ exists c d, unwrap m = VObj c d)).
  { intros Q. destruct (IH _ _ _ Q) as (A & B & C & D & F & G & H). repeat (split; [assumption|]). intros i o J. destruct (H i o J) as (t & m & f & r & I1 & I2). exists t, m, f, r. split; [right; exact I1|exact I2]. }
  destruct g; try exact (SK E). cbn [handle_all] in E. clear SK.
  destruct (node_go o (NEvMessage (unwrap m)) s) as [s1 o1] eqn:E1. destruct (handle_all os s1) as [s2 o2] eqn:E2. injection E as <- <-.
  destruct (node_go_spec o (NEvMessage (unwrap m)) s s1 o1 now I ltac:(discriminate) E1) as (A & B & C & S & M & Q). destruct (IH _ _ _ E2) as (A' & B' & C' & S' & M' & N' & Q').
  split; [congruence|]. split; [congruence|]. split; [congruence|]. split; [congruence|]. split; [intros j; eapply moves_trans; [apply M|apply M']|].
  split. { apply Forall_app. split; [|exact N']. destruct Q as [->|(n & xs & _ & ->)]; [constructor|apply at_nodes_map]. }
  intros j x J. apply in_app_or in J as [J|J].
  - destruct Q as [->|(n & xs & ST & ->)]; [destruct J|]. apply in_map_iff in J as (o' & X & J). injection X as <- <-. exists t, m, flags.
    cbn [nstep] in ST. destruct (unwrap m) as [| | | | | | | | | | | | | | | | | | | | | | | | |c d] eqn:U; try discriminate. destruct (message_received _ (n_w (y_n s o))) as [w r]. injection ST as <- <-. destruct J as [<-|[]].
    exists r. split; [left; reflexivity|]. eauto.
  - destruct (Q' j x J) as (t' & m' & f' & r' & I1 & I2). exists t', m', f', r'. split; [right; exact I1|exact I2].
Qed.

(** what a step that does not advance the clock does: [p] is observed before the gateway's or the application's part *)
Record ymove (s s' : sys) (os : list yobs) : Prop := mkMove {
  m_nodes : forall j, moves (y_now s) j (y_n s j) (y_n s' j) os;
  m_split : exists p gos aos nos, os = p ++ map YG gos ++ map YA aos ++ nos /\ at_nodes nos /\ (forall n, on_gw (ystamp n p) = [] /\ on_app (ystamp n p) = []) /\ ((y_g s' = y_g s /\ gos = []) \/ exists e, (forall dt, e <> GAdvance dt) /\ gstep ord (y_g s) e = Some (y_g s', gos)) /\
    ((y_a s' = y_a s /\ aos = []) \/ exists e, AppM.astep (y_a s) e = Some (y_a s', aos)) /\
    (forall x, In x (y_mail s') -> In x (y_mail s) \/ In x (mails gos)) /\
    (forall t i u, In (t, (i, u)) (y_sends s') -> In (t, (i, u)) (y_sends s) \/
      exists o cmd stmo, In (YUse i u t cmd stmo) p /\ In (GCalled t (send_call (AppM.o_root o) (AppM.o_ep o) cmd stmo)) gos /\ nth_error (AppM.a_objs (y_a s)) i = Some o) /\
    (forall i u r, ~ In (YN i (NSent u r)) p) /\ (forall i m r, ~ In (YN i (NRecv m r)) p) /\
    (forall i u r, In (YN i (NSent u r)) nos -> exists t x, In (GRet t x) gos /\ In (t, (i, u)) (y_sends s') /\ r = sent_result x) /\
    (forall i m r, In (YN i (NRecv m r)) nos -> exists x o c d, In x (y_mail s) /\ nth_error (AppM.a_objs (y_a s)) i = Some o /\ AppM.o_root o = l_node x /\
      ep_key (l_ep x) = Some (AppM.o_ep o) /\ m = unwrap (l_cmd x) /\ m = VObj c d) }.
Lemma sends_in {V} t (d : list (nat * V)) v : dget Nat.eqb t d = Some v -> In (t, v) d.
Proof. induction d as [|[k x] d IH]; cbn; [discriminate|]. destruct (Nat.eqb_spec t k) as [->|]; [intros E; injection E as ->; auto|auto]. Qed.
Lemma gw_go_spec now e s s' os : gw_go ord e s = Some (s', os) -> exists gos nos, gstep ord (y_g s) e = Some (y_g s', gos) /\ os = map YG gos ++ nos /\ at_nodes nos /\
  y_a s' = y_a s /\ y_mail s' = y_mail s ++ mails gos /\ y_sends s' = y_sends s /\ (forall j, moves now j (y_n s j) (y_n s' j) os) /\
  (forall i u r, In (YN i (NSent u r)) nos -> exists t x, In (GRet t x) gos /\ In (t, (i, u)) (y_sends s') /\ r = sent_result x) /\
  (forall i m r, ~ In (YN i (NRecv m r)) nos).
Proof.
  intros E. unfold gw_go in E. destruct (gstep ord (y_g s) e) as [[g gos]|] eqn:G; [|discriminate].
  destruct (settle gos (set_mail (y_mail s ++ mails gos) (set_g g s))) as [s1 nos] eqn:S. injection E as <- <-.
  destruct (settle_spec now _ _ _ _ S) as (A & B & C & D & M & N & Q). exists gos, nos. cbn [y_g y_a y_mail y_sends y_n set_mail set_g] in *.
  split; [rewrite A; exact G || reflexivity|]. split; [reflexivity|]. split; [exact N|]. split; [exact B|]. split; [exact C|]. split; [exact D|]. split.
  { intros j. eapply moves_trans; [|apply M]. apply moves_quiet. apply node_of_g. }
  split.
  - intros i u r J. destruct (Q _ _ J) as (t & x & u' & J1 & J2 & [J3|(y & J3 & _)]); [|discriminate]. injection J3 as -> ->. exists t, x. split; [exact J1|]. split; [|reflexivity]. rewrite D. apply sends_in. exact J2.
  - intros i m r J. destruct (Q _ _ J) as (t & x & u' & J1 & J2 & [J3|(y & J3 & _)]); discriminate.
Qed.
Lemma nodes_only_p s s' os : y_g s' = y_g s -> y_a s' = y_a s -> y_mail s' = y_mail s -> y_sends s' = y_sends s -> (forall j, moves (y_now s) j (y_n s j) (y_n s' j) os) ->
  at_nodes os -> (forall i u r, ~ In (YN i (NSent u r)) os) -> (forall i m r, ~ In (YN i (NRecv m r)) os) -> ymove s s' os.
Proof.
  intros A B C D M N S R. constructor; [exact M|]. exists os, [], [], []. cbn [map]. rewrite !app_nil_r. split; [reflexivity|]. split; [constructor|]. split; [intros n; split; [apply nodes_gw|apply nodes_app]; exact N|].
  split; [auto|]. split; [auto|]. split; [rewrite C; auto|]. split; [rewrite D; auto|]. split; [exact S|]. split; [exact R|]. split; intros ? ? ? [].
Qed.
Definition plain (e : nevent) : Prop := match e with NEvCall _ | NEvTimer _ | NEvResume _ => True | _ => False end.
Lemma plain_step n e n' os : plain e -> nstep n e = Some (n', os) -> (forall u r, ~ In (NSent u r) os) /\ (forall m r, ~ In (NRecv m r) os).
Proof.
  intros P E. assert (F : forall t r s s' o, n_finish t r s = (s', o) -> (forall u r, ~ In (NSent u r) o) /\ (forall m r, ~ In (NRecv m r) o)).
  { intros t r s s' o Q. unfold n_finish in Q. injection Q as <- <-. split; intros ? ? [|[]]; discriminate. }
  destruct e; try destruct P; cbn [nstep] in E.
  - destruct c; [destruct (add_session h (n_w n))|]; injection E as <- <-; split; intros ? ? [|[]]; discriminate.
  - destruct (nth_error (n_tasks n) t) as [[c [|h f dl []| |]]|]; try discriminate. destruct (dl <=? n_now n); [|discriminate]. injection E as <- <-. split; intros ? ? [].
  - destruct (nth_error (n_tasks n) t) as [[c [|h f dl ph|h f|]]|]; try discriminate.
    + unfold n_resume in E. destruct (nth_error (w_futs (n_w n)) f) as [[]|], ph; try discriminate; try (match type of E with Some (n_finish ?a ?b ?c) = _ => destruct (n_finish a b c) as [s1 o] eqn:Q; injection E as <- <-; exact (F _ _ _ _ _ Q) end).
      injection E as <- <-. split; intros ? ? [].
    + match type of E with Some (n_finish ?a ?b ?c) = _ => destruct (n_finish a b c) as [s1 o] eqn:Q; injection E as <- <-; exact (F _ _ _ _ _ Q) end.
Qed.
Lemma plain_go i e s s' os : plain e -> node_go i e s = (s', os) -> at_nodes os /\ (forall j u r, ~ In (YN j (NSent u r)) os) /\ (forall j m r, ~ In (YN j (NRecv m r)) os).
Proof.
  intros P E. assert (NA : forall dt, e <> NEvAdvance dt) by (intros dt ->; destruct P). assert (RO : runs_on e) by (destruct e; try destruct P; exact I). destruct (node_go_spec i e s s' os 0 RO NA E) as (_ & _ & _ & _ & _ & [->|(n & xs & ST & ->)]).
  - split; [constructor|]. split; intros ? ? ? [].
  - destruct (plain_step _ _ _ _ P ST) as [X Y]. split; [apply at_nodes_map|]. split; intros j a b J; apply in_map_iff in J as (o & Q & J); injection Q as <- ->; [exact (X _ _ J)|exact (Y _ _ J)].
Qed.
Lemma drop_in {A} (x : A) l : forall k, In x (drop k l) -> In x l.
Proof. induction l as [|y l IH]; intros [|k] J; try (destruct J; fail); [right; exact J|]. destruct J as [->|J]; [left; reflexivity|right; exact (IH _ J)]. Qed.
Lemma message_step s aes tr r ep m f s2 os : AppM.aexec AppM.app0 aes s tr -> AppM.astep s (AppM.ECall (AppM.AMessage r ep m f)) = Some (s2, os) ->
  forall t i m' f', In (AppM.OHandle t i m' f') os -> m' = m /\ exists o, nth_error (AppM.a_objs s) i = Some o /\ AppM.o_root o = r /\ ep = Some (AppM.o_ep o).
Proof.
  intros X S t i m' f' J. pose proof (AppProofs.wf_tab _ (AppProofs.wf_exec _ _ _ _ X AppProofs.wf0)) as T. destruct (AppRoute.call_step _ _ _ _ S) as (d & os1 & p & E & -> & _).
  destruct J as [J|J]; [discriminate|]. cbn [AppM.astart] in E. unfold AppM.start_message in E. cbn [fst AppProofs.tabs_of] in E.
  destruct (match ep with Some e => dget AppM.key_eqb (r, e) (AppM.a_tab s) | None => None end) as [i'|] eqn:L.
  - injection E as <- <- <-. destruct J as [J|[]]. injection J as _ <- <- _. split; [reflexivity|]. destruct ep as [e|]; [|discriminate]. apply AppProofs.kget_in in L.
    destruct (AppProofs.to_objs _ T _ _ L) as (o & N & K). exists o. injection K as K1 K2. rewrite K2. auto.
  - destruct (r =? AppM.a_me s); injection E as <- <- <-; destruct J as [J|[]]; discriminate.
Qed.
Lemma ystep_move s e s' os aes tr : AppM.aexec AppM.app0 aes (y_a s) tr -> (forall dt, e <> YAdvance dt) -> ystep s e = Some (s', os) -> ymove s s' os.
Proof.
  intros XA NA E. destruct e as [dt|e|e|k|i c cmd stmo|i e]; cbn [SystemM.ystep] in E.
  - destruct (NA dt eq_refl).
  - assert (Q : gw_go ord e s = Some (s', os) /\ forall dt, e <> GAdvance dt) by (destruct e; [discriminate|..]; (split; [exact E|discriminate])). clear E. destruct Q as [E N].
    destruct (gw_go_spec (y_now s) _ _ _ _ E) as (gos & nos & G & -> & AN & A & M & D & MV & S & R). constructor; [exact MV|]. exists [], gos, [], nos. cbn [map List.app].
    split; [reflexivity|]. split; [exact AN|]. split; [split; reflexivity|]. split; [right; eauto|]. split; [auto|]. split; [intros x J; rewrite M in J; apply in_app_or in J; exact J|].
    split; [rewrite D; auto|]. split; [intros ? ? ? []|]. split; [intros ? ? ? []|]. split; [exact S|]. intros i m r J. destruct (R _ _ _ J).
  - assert (Q : exists a aos, AppM.astep (y_a s) e = Some (a, aos) /\ s' = set_a a s /\ os = map YA aos).
    { destruct e as [c|t r|z]; [destruct c; try discriminate E| |]; match type of E with match ?x with _ => _ end = _ => destruct x as [[a aos]|] eqn:G; [|discriminate E] end; injection E as <- <-; exists a, aos; auto. }
    destruct Q as (a & aos & G & -> & ->). constructor; [intros j; apply moves_quiet; apply node_of_a|]. exists [], [], aos, []. cbn [map List.app set_a y_g y_a y_n y_mail y_sends]. rewrite app_nil_r.
    split; [reflexivity|]. split; [constructor|]. split; [split; reflexivity|]. split; [auto|]. split; [eauto|]. split; [auto|]. split; [auto|]. split; [intros ? ? ? []|]. split; [intros ? ? ? []|]. split; intros ? ? ? [].
  - destruct (nth_error (y_mail s) k) as [x|] eqn:K; [|discriminate].
    destruct (AppM.astep (y_a s) (AppM.ECall (AppM.AMessage (l_node x) (ep_key (l_ep x)) (l_cmd x) (l_flags x)))) as [[a aos]|] eqn:G; [|discriminate].
    destruct (handle_all aos (set_mail (drop k (y_mail s)) (set_a a s))) as [s1 nos] eqn:H. injection E as <- <-.
    destruct (handle_spec (y_now s) _ _ _ _ H) as (A & B & C & D & M & N & Q). cbn [y_g y_a y_mail y_sends y_n set_mail set_a] in *.
    constructor. { intros j. eapply moves_trans; [|apply M]. apply moves_quiet. apply node_of_a. }
    exists [], [], aos, nos. cbn [map List.app]. split; [reflexivity|]. split; [exact N|]. split; [split; reflexivity|]. split; [auto|]. split; [right; rewrite B; eauto|].
    split; [intros y J; left; rewrite C in J; exact (drop_in _ _ _ J)|]. split; [rewrite D; auto|]. split; [intros ? ? ? []|]. split; [intros ? ? ? []|]. split.
    + intros i u r J. destruct (Q _ _ J) as (t & m & f & r' & _ & J2 & _). discriminate.
    + intros i m r J. destruct (Q _ _ J) as (t & m' & f & r' & J1 & J2 & c & d & J3). injection J2 as -> ->. destruct (message_step _ _ _ _ _ _ _ _ _ XA G _ _ _ _ J1) as (-> & o & O1 & O2 & O3).
      exists x, o, c, d. split; [exact (nth_error_In _ _ K)|]. auto.
  - destruct (nth_error (AppM.a_objs (y_a s)) i) as [o|] eqn:O; [|discriminate].
    destruct (node_go i (NEvCall c) s) as [s1 o1] eqn:N1. destruct (node_go_spec i (NEvCall c) s s1 o1 (y_now s) I ltac:(discriminate) N1) as (A & B & C & D & M & _). destruct (plain_go i (NEvCall c) s s1 o1 I N1) as (AN & S1 & R1).
    destruct c as [h tmo|h tmo].
    + destruct (gw_go ord (GCall (send_call (AppM.o_root o) (AppM.o_ep o) cmd stmo)) (add_send (length (g_tasks (y_g s))) i (length (n_tasks (y_n s i))) s1)) as [[s2 o2]|] eqn:G; [|discriminate]. injection E as <- <-.
      destruct (gw_go_spec (y_now s) _ _ _ _ G) as (gos & nos & G1 & -> & AN2 & A2 & M2 & D2 & MV & S2 & R2). cbn [y_g y_a y_mail y_sends y_n add_send] in *.
      constructor. { intros j. change (o1 ++ YUse ?i ?u ?t cmd stmo :: ?r) with (o1 ++ [YUse i u t cmd stmo] ++ r). eapply moves_trans; [apply M|]. eapply moves_trans; [|apply MV]. apply moves_quiet. reflexivity. }
      set (u := length (n_tasks (y_n s i))) in *. set (t := length (g_tasks (y_g s))) in *. exists (o1 ++ [YUse i u t cmd stmo]), gos, [], nos. cbn [map List.app].
      split; [rewrite <- app_assoc; reflexivity|]. split; [exact AN2|]. split. { intros n. rewrite ystamp_app, gw_app, app_app, nodes_gw, nodes_app by exact AN. split; reflexivity. }
      split; [right; exists (GCall (send_call (AppM.o_root o) (AppM.o_ep o) cmd stmo)); split; [discriminate|]; rewrite <- A; exact G1|]. split; [left; split; [congruence|reflexivity]|].
      split; [intros x J; rewrite M2, C in J; apply in_app_or in J; exact J|]. split.
      { intros t' i' u' J. rewrite D2, D in J. destruct J as [J|J]; [|auto]. right. injection J as <- <- <-. exists o, cmd, stmo. split; [apply in_or_app; right; left; reflexivity|]. split; [|exact O].
        unfold send_call in G1. cbn [gstep] in G1. injection G1 as G1. unfold spawn in G1. rewrite A in G1. destruct (start _ _ _ _) as [[d os] a]. injection G1 as _ <-. left. reflexivity. }
      split; [intros j v r J; apply in_app_or in J as [J|[J|[]]]; [exact (S1 _ _ _ J)|discriminate]|]. split; [intros j v r J; apply in_app_or in J as [J|[J|[]]]; [exact (R1 _ _ _ J)|discriminate]|].
      split; [exact S2|]. intros j m r J. destruct (R2 _ _ _ J).
    + injection E as <- <-. apply nodes_only_p; assumption.
  - assert (P : plain e /\ node_go i e s = (s', os)) by (destruct e; try discriminate; (split; [exact I|]); match type of E with match ?x with _ => _ end = _ => destruct x; [|discriminate] end; congruence).
    destruct P as [P N1]. assert (NA' : forall dt, e <> NEvAdvance dt) by (intros dt ->; destruct P). assert (RO : runs_on e) by (destruct e; try destruct P; exact I). destruct (node_go_spec i e s s' os (y_now s) RO NA' N1) as (A & B & C & D & M & _). destruct (plain_go i e s s' os P N1) as (AN & S1 & R1).
    apply nodes_only_p; assumption.
Qed.
Lemma yexec_app s0 es1 s1 tr1 : yexec s0 es1 s1 tr1 -> forall es2 s2 tr2, yexec s1 es2 s2 tr2 -> yexec s0 (es1 ++ es2) s2 (tr1 ++ tr2).
Proof. intros A es2 s2 tr2 B. induction B as [|es s tr e s' os B IH ST]; [rewrite !app_nil_r; exact A|]. rewrite !app_assoc. econstructor; eassumption. Qed.
Lemma yrun_exec es : forall s s' tr, yrun ord s es = Some (s', tr) -> yexec s es s' tr.
Proof.
  induction es as [|e es IH]; intros s s' tr E; cbn [yrun] in E; [injection E as <- <-; constructor|].
  destruct (ystep s e) as [[s1 os]|] eqn:ST; [|discriminate]. destruct (yrun ord s1 es) as [[s2 tr2]|] eqn:R; [|discriminate]. injection E as <- <-.
  change (e :: es) with ([e] ++ es). change (ystamp (y_now s) os) with ([] ++ ystamp (y_now s) os). eapply yexec_app; [|apply IH; exact R]. change [e] with ([] ++ [e]). econstructor; [constructor|exact ST].
Qed.
End System.
