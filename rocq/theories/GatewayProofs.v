(** The structure of gateway executions: what one step does to the tasks and to the connections. *)
From Coq Require Import String ZArith List Bool Lia.
From Verif Require Import Py Schema Registry Codec Waiter Conn SpecConn ConnLemmas Gateway SpecGateway.
Import ListNotations.
Open Scope list_scope.
Open Scope string_scope.
Open Scope list_scope.
Open Scope Z_scope.

Section Proofs.
Variable ord : list Z -> list Z.
Notation unwind := (unwind ord). Notation frame_step := (frame_step ord). Notation start := (start ord). Notation gstep := (gstep ord). Notation gexec := (gexec ord).
Notation spawn := (spawn ord). Notation wake := (wake ord). Notation setup_nodes := (setup_nodes ord). Notation start_report := (start_report ord).

(** ** what a coroutine does between two awaits *)
(** observations of task [t] and of connections; connections change only by calls of [t] *)
Definition ours (t : nat) (o : gobs) : Prop :=
  match o with GAt _ o => (forall v, o <> OHeard v) | GSub t' _ _ _ | GAsk t' _ _ _ | GFound t' _ _ | GNew t' _ _ _ | GUpdated t' => t' = t | _ => False end.
Definition done_at (l : option nat) (u : nat) (d : gdata) : Prop := exists k c r, conn_at l d = Some k /\ nth_error (c_tasks k) u = Some (mkT c (PDone r)).
(** state transformers made of calls and table updates *)
Inductive moves (t : nat) : gdata -> list gobs -> gdata -> Prop :=
| M_nil d : moves t d [] d
| M_obs d o d' os : (match o with GAsk t' _ _ _ | GFound t' _ _ | GUpdated t' => t' = t | _ => False end) -> moves t d os d' -> moves t d (o :: os) d'
| M_sub d l k c u k' os d' os' : conn_at l d = Some k -> step k (EvCall c) = Some (k', os) -> u = length (c_tasks k) -> moves t (set_conn l k' d) os' d' ->
    moves t d (GSub t l u c :: map (GAt l) os ++ os') d'
| M_new d n a d' os : moves t (set_links (d_links d ++ [new_conn d]) d) os d' -> moves t d (GNew t (length (d_links d)) n a :: os) d'
| M_tables d nm ctl nodes conns d' os : moves t (mkD (d_c d) nm ctl nodes conns (d_links d)) os d' -> moves t d os d'.

Lemma moves_app t d os d' os' d'' : moves t d os d' -> moves t d' os' d'' -> moves t d (os ++ os') d''.
Proof.
  intros H. revert os' d''. induction H; intros o2 d2 HH; cbn [app]; [exact HH| | | |].
  - constructor; [assumption|]. auto.
  - rewrite <- app_assoc. eapply M_sub; [eassumption|eassumption|assumption|]. apply IHmoves. exact HH.
  - apply M_new. auto.
  - eapply M_tables. apply IHmoves. exact HH.
Qed.
Lemma moves_tables t d nm ctl nodes conns : moves t d [] (mkD (d_c d) nm ctl nodes conns (d_links d)).
Proof. eapply M_tables. constructor. Qed.

Definition gd (g : go) : gdata := fst (fst g).
Definition gos (g : go) : list gobs := snd (fst g).
Definition gact (g : go) : act := snd g.
Definition good_go (t : nat) (d : gdata) (g : go) : Prop := moves t d (gos g) (gd g).

Lemma good_ret t r d : good_go t d (ret r d). Proof. constructor. Qed.
Lemma good_sub t l c d : good_go t d (sub t l c d).
Proof.
  unfold sub, good_go. destruct (conn_at l d) as [k|] eqn:K; [|constructor]. destruct (step k (EvCall c)) as [[k' os]|] eqn:S; [|constructor].
  cbn. rewrite <- (app_nil_r (map (GAt l) os)). eapply M_sub; eauto. constructor.
Qed.
Lemma good_under t d g fs k : good_go t d g -> (forall r d', good_go t d' (k r d')) -> good_go t d (under g fs k).
Proof.
  intros G K. destruct g as [[d1 os] a]. unfold under, good_go in *. cbn in G. destruct a as [r|w gs]; [|exact G].
  specialize (K r d1). destruct (k r d1) as [[d2 os2] a2]. cbn in *. eapply moves_app; eassumption.
Qed.
Lemma good_tables t d nm ctl nodes conns g : good_go t (mkD (d_c d) nm ctl nodes conns (d_links d)) g -> good_go t d g.
Proof. apply M_tables. Qed.
Lemma good_ip t n d : good_go t d (start_ip t n d).
Proof.
  unfold start_ip. destruct (solicit n) as [bs|e]; [|apply good_ret]. pose proof (good_sub t None (CWait adv_hid 3000) d) as G.
  destruct (sub t None (CWait adv_hid 3000) d) as [[d' os] [r|w fs]]; (apply M_obs; [reflexivity|exact G]).
Qed.
Lemma good_report_loop t ns : forall d, good_go t d (report_loop t ns d).
Proof.
  induction ns as [|n ns IH]; intros d; cbn [report_loop]; [apply M_obs; [reflexivity|constructor]|]. destruct (dmem Z.eqb n (d_nodes d)); [apply IH|].
  apply good_under; [apply good_ip|]. intros [?|?] ?; apply good_ret.
Qed.
Lemma good_setup_loop t ns : forall d, good_go t d (setup_loop t ns d).
Proof.
  induction ns as [|n ns IH]; intros d; cbn [setup_loop]; [apply good_ret|]. destruct (dget Z.eqb n (d_nodes d)) as [ip|]; [|apply good_ret]. destruct (truthy ip); [apply IH|].
  apply good_under; [apply good_ip|]. intros [?|?] ?; apply good_ret.
Qed.
Lemma good_framed t l c d fs : good_go t d (match sub t l c d with (d', os, AWait w gs) => (d', os, AWait w (gs ++ fs)) | g => g end).
Proof. pose proof (good_sub t l c d) as G. destruct (sub t l c d) as [[d' os] [r|w gs]]; exact G. Qed.
Lemma good_mode t m tmo d : good_go t d (start_mode t m tmo d).
Proof. unfold start_mode. exact (good_framed t _ _ d [FMode m]). Qed.
Lemma good_list t d : good_go t d (start_list t d).
Proof.
  unfold start_list. destruct (d_nodes d); [|apply good_ret]. destruct (new_msg _ _) as [m|e]; [|eapply M_tables; apply good_ret].
  eapply M_tables. exact (good_framed t None _ (set_nm (d_nm d + 1) d) [FList]).
Qed.
Lemma good_nm t q d : good_go t d (start_nm t q d).
Proof.
  unfold start_nm. destruct (nm_msg q _) as [m|e]; [|eapply M_tables; apply good_ret].
  eapply M_tables. exact (good_framed t None _ (set_nm (d_nm d + 1) d) [FNm q]).
Qed.
Lemma good_setup t r d : good_go t d (setup_nodes t r d).
Proof. unfold setup_nodes. destruct r as [[v|l]|e]; try apply good_ret. destruct v; try apply good_ret. apply good_setup_loop. Qed.
Lemma good_link t n d : good_go t d (start_link t n d).
Proof. unfold start_link. destruct (dget Z.eqb n (d_conns d)); [apply good_ret|]. apply good_under; [apply good_ip|]. intros; apply good_ret. Qed.

Lemma good_frame t f r d : good_go t d (frame_step t f r d).
Proof.
  destruct f, r as [[v|l']|e]; cbn [frame_step]; try apply good_ret; try apply good_setup; try (destruct e; apply good_ret).
  - apply M_obs; [reflexivity|constructor].
  - destruct v; try apply good_ret. apply M_new. constructor.
  - apply moves_tables.
  - apply moves_tables.
  - apply good_sub.
  - eapply good_tables. apply good_report_loop.
  - destruct (is_mode v mode); [apply good_ret|]. apply good_under; [|intros; apply good_ret]. destruct (new_msg _ _); [apply good_sub|apply good_ret].
  - destruct (getattr v "nodes"); exact (moves_tables t d _ _ _ _).
  - apply good_under; [apply good_mode|]. intros [?|?] ?; apply good_ret || constructor.
  - apply good_under; [apply good_mode|]. intros [?|?] ?; apply good_ret || constructor.
  - constructor.
  - constructor.
  - apply good_under; [apply good_sub|]. intros; apply good_ret.
  - apply good_under; [apply good_sub|]. intros; apply good_ret.
  - apply good_under; [apply good_list|]. intros; apply good_setup.
  - apply good_under; [apply good_list|]. intros; apply good_setup.
  - eapply good_tables. apply good_setup_loop.
Qed.
Lemma good_unwind t fs : forall r d, good_go t d (unwind t r fs d).
Proof.
  induction fs as [|f fs IH]; intros r d; cbn [unwind]; [apply good_ret|]. pose proof (good_frame t f r d) as G.
  destruct (frame_step t f r d) as [[d' os] [r'|w gs]]; [|exact G]. specialize (IH r' d'). destruct (unwind t r' fs d') as [[d'' os'] a].
  unfold good_go in *. cbn in *. eapply moves_app; eassumption.
Qed.
Lemma good_start t c d : good_go t d (start t c d).
Proof.
  destruct c; cbn [start]; auto using good_nm, good_list, good_ip, good_link, good_mode.
  - apply good_under; [apply good_link|]. intros [[?|?]|?] ?; try apply good_ret. apply good_sub.
  - unfold start_report. destruct nodes; try apply good_ret. eapply good_tables. apply good_report_loop.
  - constructor.
Qed.

Lemma moves_ours t d os d' : moves t d os d' -> Forall (ours t) os.
Proof.
  induction 1; [constructor| | | |assumption].
  - constructor; [|assumption]. destruct o; try contradiction; cbn; assumption.
  - constructor; [reflexivity|]. apply Forall_app. split; [|assumption]. apply Forall_forall. intros x J. apply in_map_iff in J as (o & <- & J). cbn. intros v ->.
    cbn [step] in H0. destruct (start_call _ c _) as [k2 o2] eqn:E. injection H0 as _ <-. destruct J as [J|J]; [discriminate|].
    assert (HS : forall t0 cmd sep dep tmo ses s0 v, ~ In (OHeard v) (snd (start_send t0 cmd sep dep tmo ses s0))).
    { intros t0 cmd sep dep tmo ses s0 v0. unfold start_send. cbv zeta.
      assert (HC : forall bs kk, ~ In (OHeard v0) (conn_send (Some t0) bs kk)).
      { intros bs kk. unfold conn_send. destruct (c_up kk); intros I; [destruct I as [I|I]; [discriminate I|]|]; destruct I. }
      destruct (send_bytes _ _ _ _) as [bs|e].
      - destruct (dmem _ _ _); unfold finish; cbn [snd]; intros I; [apply in_app_or in I as [I|I]|].
        + exact (HC _ _ I).
        + destruct I as [I|I]; [discriminate I|destruct I].
        + exact (HC _ _ I).
      - intros I. destruct I as [I|I]; [discriminate I|destruct I]. }
    unfold start_call in E. destruct c.
    + eapply HS. rewrite E. exact J.
    + destruct (add_session h _). eapply HS. rewrite E. exact J.
    + destruct (add_session h _). injection E as <- <-. destruct J.
  - constructor; [reflexivity|assumption].
Qed.

(** ** one step *)
Definition pc_of (a : act) : gpc := match a with ARet r => GDone r | AWait w fs => GWait w fs end.
(** same tables, as many connections *)
Definition same_tables (d d' : gdata) : Prop :=
  d_nm d' = d_nm d /\ d_ctl d' = d_ctl d /\ d_nodes d' = d_nodes d /\ d_conns d' = d_conns d /\ length (d_links d') = length (d_links d).
Definition no_task (o : gobs) : Prop := task_of o = None.
(** a connection reports to the waiting task *)
Definition back (w : await) (r : res gval) (pre : list gobs) : Prop :=
  match w with
  | AwCall l u => exists r0, r = of_result r0 /\ In (GAt l (ORet u r0)) pre
  | _ => (exists e, r = Err e) \/ r = Ok (GV VNone)
  end.
Inductive gcase (s : gw) : gevent -> gw -> list gobs -> Prop :=
| GC_idle e s' os : g_tasks s' = g_tasks s -> same_tables (g_d s) (g_d s') -> Forall no_task os -> gcase s e s' os
| GC_spawn e c d os a pre : start (length (g_tasks s)) c (g_d s) = (d, os, a) -> Forall no_task pre -> (e = GCall c \/ exists v, c = GReport v) ->
    gcase s e (mkG d (g_tasks s ++ [mkGT c (pc_of a)])) (pre ++ GCalled (length (g_tasks s)) c :: os ++ said (length (g_tasks s)) a)
| GC_wake e t c w fs r d1 d os a pre : nth_error (g_tasks s) t = Some (mkGT c (GWait w fs)) -> same_tables (g_d s) d1 -> back w r pre -> Forall no_task pre ->
    unwind t r fs d1 = (d, os, a) -> gcase s e (mkG d (upd t (mkGT c (pc_of a)) (g_tasks s))) (pre ++ GBack t w r :: os ++ said t a).

Lemma upd_snoc {A} (l : list A) x y : upd (length l) y (l ++ [x]) = l ++ [y].
Proof. induction l; cbn; congruence. Qed.
Lemma spawn_eq c s d os a : start (length (g_tasks s)) c (g_d s) = (d, os, a) ->
  spawn c s = (mkG d (g_tasks s ++ [mkGT c (pc_of a)]), GCalled (length (g_tasks s)) c :: os ++ said (length (g_tasks s)) a).
Proof.
  intros E. unfold Gateway.spawn. rewrite E. unfold set_pc. rewrite nth_snoc, Nat.eqb_refl. cbn [gt_call]. rewrite upd_snoc. reflexivity.
Qed.
Lemma waiter_of_some l u ts : forall i t fs, waiter_of l u i ts = Some (t, fs) -> exists c, (i <= t)%nat /\ nth_error ts (t - i) = Some (mkGT c (GWait (AwCall l u) fs)).
Proof.
  induction ts as [|x ts IH]; intros i t fs H; [discriminate|]. cbn [waiter_of] in H. destruct (waits_for l u x) eqn:W.
  - unfold waits_for in W. destruct x as [c [w fs'|r]]; cbn [gt_pc] in *; [|discriminate]. injection H as <- <-. exists c. split; [lia|]. rewrite Nat.sub_diag. cbn.
    destruct w as [l' u'|l'|]; try discriminate. apply andb_true_iff in W as [W1 W2]. apply Nat.eqb_eq in W2. subst u'.
    destruct l as [l|], l' as [l'|]; try discriminate; [apply Nat.eqb_eq in W1; subst|]; reflexivity.
  - destruct (IH _ _ _ H) as (c & L & E). exists c. split; [lia|]. replace (t - i)%nat with (S (t - S i))%nat by lia. exact E.
Qed.
Lemma wake_eq t c w r fs s d1 d os a : nth_error (g_tasks s) t = Some (mkGT c (GWait w fs)) -> unwind t r fs d1 = (d, os, a) ->
  wake t w r fs (mkG d1 (g_tasks s)) = (mkG d (upd t (mkGT c (pc_of a)) (g_tasks s)), GBack t w r :: os ++ said t a).
Proof. intros N E. unfold Gateway.wake. cbn [g_d g_tasks]. rewrite E. unfold set_pc. rewrite N. reflexivity. Qed.
Lemma same_set_conn l k d : same_tables d (set_conn l k d).
Proof. destruct l; cbn; unfold same_tables; cbn; rewrite ?upd_length; auto. Qed.
Lemma same_refl d : same_tables d d. Proof. unfold same_tables; auto. Qed.
Lemma lift_no_task l d os : Forall no_task (flat_map (lift l d) os).
Proof.
  apply Forall_forall. intros x J. apply in_flat_map in J as (o & _ & J). unfold lift in J. destruct J as [<-|J]; [reflexivity|].
  destruct l, o; try destruct J as [<-|J]; try destruct J. unfold no_task, heard. destruct (node_of _ _); reflexivity.
Qed.
Lemma returned_in os u r : returned os = Some (u, r) -> In (ORet u r) os.
Proof.
  unfold returned. destruct (find _ os) as [o|] eqn:F; [|discriminate]. apply find_some in F as [I _]. destruct o; try discriminate. intros E. injection E as -> ->. exact I.
Qed.
Lemma unsol_no_task bs addr d : Forall no_task (fst (unsolicited bs addr d)).
Proof.
  unfold unsolicited. destruct (decode bs) as [m|e]; [|repeat constructor]. destruct addr as [a|]; [|repeat constructor].
  destruct (is_msg _ _); [constructor|]. destruct (from_ip _ _) as [n|]; [|repeat constructor]. destruct (truthy _); [|repeat constructor].
  destruct (is_msg _ _); [|repeat constructor]. destruct (zip_response _ _ _ _ _) as [z|e]; cbn [bind]; [destruct (compose z)|]; repeat constructor.
Qed.
Lemma step_case s e s' os : gstep s e = Some (s', os) -> gcase s e s' os.
Proof.
  destruct e as [dt|c|l e|t r|bs addr]; cbn [Gateway.gstep].
  - destruct (0 <=? dt); [|discriminate]. intros E. injection E as <- <-. apply GC_idle; [reflexivity| |constructor]. unfold same_tables. cbn. rewrite map_length. auto.
  - intros E. assert (E' : Some (spawn c s) = Some (s', os)) by (destruct c; try exact E; discriminate). injection E' as E'.
    destruct (start (length (g_tasks s)) c (g_d s)) as [[d os1] a] eqn:S. rewrite (spawn_eq _ _ _ _ _ S) in E'. injection E' as <- <-.
    exact (GC_spawn s (GCall c) c d os1 a [] S (Forall_nil _) (or_introl eq_refl)).
  - intros E. assert (E' : match conn_at l (g_d s) with None => None | Some k => match step k e with None => None | Some (k', os) =>
        match returned os with None => Some (mkG (set_conn l k' (g_d s)) (g_tasks s), flat_map (lift l (g_d s)) os)
        | Some (u, r) => match waiter_of l u 0 (g_tasks s) with None => Some (mkG (set_conn l k' (g_d s)) (g_tasks s), flat_map (lift l (g_d s)) os)
          | Some (t, fs) => let (s2, os2) := wake t (AwCall l u) (of_result r) fs (mkG (set_conn l k' (g_d s)) (g_tasks s)) in Some (s2, flat_map (lift l (g_d s)) os ++ os2) end end end end = Some (s', os))
      by (destruct e; try exact E; discriminate). clear E.
    destruct (conn_at l (g_d s)) as [k|]; [|discriminate]. destruct (step k e) as [[k' os0]|]; [|discriminate].
    assert (I : gcase s (GConn l e) (mkG (set_conn l k' (g_d s)) (g_tasks s)) (flat_map (lift l (g_d s)) os0)).
    { apply GC_idle; [reflexivity|apply same_set_conn|apply lift_no_task]. }
    destruct (returned os0) as [[u r]|] eqn:R; [|injection E' as <- <-; exact I].
    destruct (waiter_of l u 0 (g_tasks s)) as [[t fs]|] eqn:W; [|injection E' as <- <-; exact I].
    destruct (waiter_of_some _ _ _ _ _ _ W) as (c & _ & N). rewrite Nat.sub_0_r in N.
    destruct (unwind t (of_result r) fs (set_conn l k' (g_d s))) as [[d os1] a] eqn:U. rewrite (wake_eq _ _ _ _ _ _ _ _ _ _ N U) in E'. injection E' as <- <-.
    eapply GC_wake; [exact N|apply same_set_conn| |apply lift_no_task|exact U].
    exists r. split; [reflexivity|]. apply in_flat_map. exists (ORet u r). split; [apply returned_in; exact R|left; reflexivity].
  - destruct (nth_error (g_tasks s) t) as [[c [w fs|x]]|] eqn:N; [|discriminate|discriminate].
    assert (BK : (exists e, match r with Ok _ => Ok (GV VNone) | Err e => Err e end = Err e) \/ match r with Ok _ => Ok (GV VNone) | Err e => Err e end = Ok (GV VNone)).
    { destruct r; [right; reflexivity|left; eexists; reflexivity]. }
    destruct w as [l u|l|]; [discriminate| |].
    + destruct (conn_at l (g_d s)) as [k|]; [|discriminate]. intros E. injection E as E.
      match type of E with Gateway.wake _ _ _ _ _ (mkG ?x _) = _ => set (d1 := x) in * end.
      assert (SM : same_tables (g_d s) d1) by (unfold d1; destruct r; [apply same_set_conn|apply same_refl]).
      destruct (unwind t (match r with Ok _ => Ok (GV VNone) | Err e => Err e end) fs d1) as [[d os1] a] eqn:U. rewrite (wake_eq _ _ _ _ _ _ _ _ _ _ N U) in E. injection E as <- <-.
      exact (GC_wake s _ t c (AwOpen l) fs _ d1 d os1 a [] N SM BK (Forall_nil _) U).
    + intros E. injection E as E. destruct (unwind t (match r with Ok _ => Ok (GV VNone) | Err e => Err e end) fs (g_d s)) as [[d os1] a] eqn:U.
      destruct s as [d0 ts]. cbn [g_d g_tasks] in *. pose proof (wake_eq t c AwListen _ _ (mkG d0 ts) _ _ _ _ N U) as WE. cbn [g_tasks] in WE. rewrite WE in E. injection E as <- <-.
      exact (GC_wake (mkG d0 ts) _ t c AwListen fs _ d0 d os1 a [] N (same_refl _) BK (Forall_nil _) U).
  - destruct (forallb is_byte bs); [|discriminate]. pose proof (unsol_no_task bs addr (g_d s)) as NT. destruct (unsolicited bs addr (g_d s)) as [os1 [v|]] eqn:UU; cbn [fst] in NT.
    + intros E. destruct (start (length (g_tasks s)) (GReport v) (g_d s)) as [[d os2] a] eqn:S. rewrite (spawn_eq _ _ _ _ _ S) in E. injection E as <- <-.
      exact (GC_spawn s (GUnsol bs addr) (GReport v) d os2 a (GPacket bs addr :: os1) S (Forall_cons _ (eq_refl : no_task (GPacket bs addr)) NT) (or_intror (ex_intro _ v eq_refl))).
    + intros E. injection E as <- <-. apply GC_idle; [reflexivity|apply same_refl|]. constructor; [reflexivity|exact NT].
Qed.
End Proofs.
