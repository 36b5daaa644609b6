(** Prompt runs of a gateway: every connection runs promptly, and a call of the gateway ends in time. *)
From Coq Require Import String ZArith List Bool Lia.
From Verif Require Import Py Schema Registry Codec Waiter Conn SpecConn SpecLive ConnLemmas ConnAck ConnInv ConnCases ConnProps ConnCalm ConnCut ConnLive.
From Verif Require Import Gateway SpecGateway SpecGatewayLive GatewayProofs GatewayLinks GatewayStory GatewayLive.
Import ListNotations.
Open Scope list_scope.
Open Scope string_scope.
Open Scope list_scope.
Open Scope Z_scope.

(** ** connections (as in GatewayLinks.v, for prompt runs) *)
Definition plinked (d : gdata) (tr : gtrace) : Prop := clocks d /\ forall l, exists evs, prompt_exec conn0 evs (cat l d) (on_link l tr).
Lemma plinked_step d tr l k e k' os xs n : plinked d tr -> conn_at l d = Some k -> step k e = Some (k', os) -> (forall dt, e <> EvAdvance dt) -> n = c_now (d_c d) ->
  on_link l (gstamp n xs) = stamp n os -> (forall l', l' <> l -> on_link l' (gstamp n xs) = []) -> plinked (set_conn l k' d) (tr ++ gstamp n xs) /\ c_now (d_c (set_conn l k' d)) = c_now (d_c d).
Proof.
  intros [C X] E ST NA -> O1 O2. destruct (X l) as (evs & XL). assert (CL : cat l d = k) by (unfold cat; rewrite E; reflexivity). rewrite CL in XL.
  destruct (exec_good _ _ _ (prompt_run _ _ _ _ XL)) as [G _]. assert (N : c_now k' = c_now k) by (rewrite (step_now _ _ _ _ _ G ST); destruct e; try reflexivity; elim (NA dt); reflexivity).
  destruct (set_conn_cat _ _ _ _ E C N) as (C' & K1 & K2 & K3). split; [|exact K3]. split; [exact C'|]. intros l'. destruct (same_link l' l) eqn:S.
  - apply same_link_spec in S as ->. exists (evs ++ [e]). rewrite K1, on_link_app, O1, <- (clocks_at _ _ _ C E). apply R_snoc; [assumption|assumption|]. intros dt x u ->. elim (NA dt). reflexivity.
  - assert (NE : l' <> l) by (intros ->; rewrite same_link_refl in S; discriminate). destruct (X l') as (evs' & X'). exists evs'. rewrite (K2 _ NE), on_link_app, (O2 _ NE), app_nil_r. exact X'.
Qed.
Lemma plinked_quiet d tr n os : plinked d tr -> (forall l, on_link l (gstamp n os) = []) -> plinked d (tr ++ gstamp n os).
Proof. intros [C X] Q. split; [exact C|]. intros l. rewrite on_link_app, Q, app_nil_r. apply X. Qed.
Lemma moves_plinked t d os d' : moves t d os d' -> forall tr n, plinked d tr -> n = c_now (d_c d) -> plinked d' (tr ++ gstamp n os) /\ c_now (d_c d') = c_now (d_c d).
Proof.
  induction 1 as [d|d o d' os H _ IH|d l k c u k' os d' os' E ST U M IH|d n0 a d' os _ IH|d nm ctl nodes conns d' os _ IH]; intros tr n L N.
  - rewrite app_nil_r. auto.
  - change (gstamp n (o :: os)) with (gstamp n [o] ++ gstamp n os). rewrite app_assoc. apply IH; [|exact N]. apply plinked_quiet; [exact L|]. apply one_off. intros l x ->. exact H.
  - assert (QS : plinked d (tr ++ gstamp n [GSub t l u c])) by (apply plinked_quiet; [exact L|]; apply one_off; discriminate).
    destruct (plinked_step _ _ _ _ _ _ _ (map (GAt l) os) n QS E ST ltac:(discriminate) N (on_link_at _ _ _) (fun l' NE => on_link_other l' l n os (not_eq_sym NE))) as [L2 N2].
    destruct (IH _ n L2 ltac:(congruence)) as [L3 N3]. split; [|congruence]. change (gstamp n (GSub t l u c :: map (GAt l) os ++ os')) with (gstamp n [GSub t l u c] ++ gstamp n (map (GAt l) os ++ os')).
    rewrite gstamp_app, !app_assoc. exact L3.
  - change (gstamp n (GNew t (length (d_links d)) n0 a :: os)) with (gstamp n [GNew t (length (d_links d)) n0 a] ++ gstamp n os). rewrite app_assoc. apply IH; [|exact N]. apply plinked_quiet; [|apply one_off; discriminate].
    destruct L as [C X]. split.
    + intros x J. cbn in J. apply in_app_or in J as [J|[<-|[]]]; [exact (C _ J)|reflexivity].
    + intros l. destruct (X l) as (evs & XL). exists evs. replace (cat l (set_links (d_links d ++ [new_conn d]) d)) with (cat l d); [exact XL|].
      destruct l as [i|]; [|reflexivity]. unfold cat. cbn [conn_at set_links d_links]. rewrite nth_snoc. destruct (Nat.eqb_spec i (length (d_links d))) as [->|]; [|reflexivity].
      rewrite (proj2 (nth_error_None (d_links d) (length (d_links d))) (le_n _)). reflexivity.
  - apply IH; [|exact N]. exact L.
Qed.

Section Links.
Variable ord : list Z -> list Z.
Lemma spawn_plinked c s tr n s' os : plinked (g_d s) tr -> n = c_now (d_c (g_d s)) -> spawn ord c s = (s', os) -> plinked (g_d s') (tr ++ gstamp n os).
Proof.
  intros L N E. destruct (start ord (length (g_tasks s)) c (g_d s)) as [[d o1] a] eqn:S. rewrite (spawn_eq _ _ _ _ _ _ S) in E. injection E as <- <-. cbn [g_d].
  pose proof (good_start ord (length (g_tasks s)) c (g_d s)) as G. rewrite S in G. unfold good_go in G. cbn in G.
  change (gstamp n (GCalled (length (g_tasks s)) c :: o1 ++ said (length (g_tasks s)) a)) with (gstamp n [GCalled (length (g_tasks s)) c] ++ gstamp n (o1 ++ said (length (g_tasks s)) a)).
  rewrite gstamp_app, !app_assoc. apply plinked_quiet; [|intros l; apply said_off]. apply (moves_plinked _ _ _ _ G); [|exact N]. apply plinked_quiet; [exact L|apply one_off; discriminate].
Qed.
Lemma wake_plinked t w r fs s tr n s' os : plinked (g_d s) tr -> n = c_now (d_c (g_d s)) -> wake ord t w r fs s = (s', os) -> plinked (g_d s') (tr ++ gstamp n os).
Proof.
  intros L N E. unfold wake in E. pose proof (good_unwind ord t fs r (g_d s)) as G. destruct (unwind ord t r fs (g_d s)) as [[d o1] a]. injection E as <- <-. cbn [g_d]. unfold good_go in G. cbn in G.
  change (gstamp n (GBack t w r :: o1 ++ said t a)) with (gstamp n [GBack t w r] ++ gstamp n (o1 ++ said t a)).
  rewrite gstamp_app, !app_assoc. apply plinked_quiet; [|intros l; apply said_off]. apply (moves_plinked _ _ _ _ G); [|exact N]. apply plinked_quiet; [exact L|apply one_off; discriminate].
Qed.
Lemma step_plinked s e s' os tr : plinked (g_d s) tr -> (forall dt, e = GAdvance dt -> forall d l k u, 0 <= d < dt -> conn_at l (g_d s) = Some k -> ~ possible (later d k) u) ->
  gstep ord s e = Some (s', os) -> plinked (g_d s') (tr ++ gstamp (g_now s) os).
Proof.
  intros L PR ST. unfold g_now. destruct e as [dt|c|l e|t r|bs addr]; cbn [gstep] in ST.
  - destruct (0 <=? dt) eqn:P; [|discriminate]. injection ST as <- <-. rewrite app_nil_r. destruct L as [C X].
    assert (TK : forall k, tick dt k = mkC (c_now k + dt) (c_up k) (c_ka k) (c_seq k) (c_ackq k) (c_acks k) (c_w k) (c_tasks k)) by (intros k; unfold tick; cbn [step]; rewrite P; reflexivity).
    cbn [g_d]. split.
    + intros x J. cbn in J. apply in_map_iff in J as (k & <- & J). cbn [d_c]. rewrite !TK. cbn. rewrite (C _ J). reflexivity.
    + intros l. destruct (X l) as (evs & XL). exists (evs ++ [EvAdvance dt]). replace (on_link l tr) with (on_link l tr ++ stamp (c_now (cat l (g_d s))) []) by apply app_nil_r.
      apply R_snoc; [exact XL| |].
      2: { intros dt0 x u E. injection E as <-. intros R. unfold cat. destruct (conn_at l (g_d s)) as [k|] eqn:K; [exact (PR dt eq_refl x l k u R K)|]. intros [Q|Q]; cbn in Q; destruct u; elim Q; reflexivity. }
      cbn [step]. rewrite P. f_equal. f_equal. destruct l as [i|]; unfold cat; cbn [conn_at d_links d_c]; [|symmetry; apply TK].
      rewrite nth_error_map. destruct (nth_error (d_links (g_d s)) i); cbn; [symmetry; apply TK|]. unfold new_conn. cbn [d_c]. rewrite TK. reflexivity.
  - assert (E : Some (spawn ord c s) = Some (s', os)) by (destruct c; try exact ST; discriminate). injection E as E. eapply spawn_plinked; eauto.
  - assert (NA : (forall dt, e <> EvAdvance dt) /\ e <> EvConnect) by (split; [intros dt|]; intros ->; discriminate).
    assert (E' : match conn_at l (g_d s) with None => None | Some k => match step k e with None => None | Some (k', os) =>
        match returned os with None => Some (mkG (set_conn l k' (g_d s)) (g_tasks s), flat_map (lift l (g_d s)) os)
        | Some (u, r) => match waiter_of l u 0 (g_tasks s) with None => Some (mkG (set_conn l k' (g_d s)) (g_tasks s), flat_map (lift l (g_d s)) os)
          | Some (t, fs) => let (s2, os2) := wake ord t (AwCall l u) (of_result r) fs (mkG (set_conn l k' (g_d s)) (g_tasks s)) in Some (s2, flat_map (lift l (g_d s)) os ++ os2) end end end end = Some (s', os))
      by (destruct e; try exact ST; discriminate). clear ST. destruct NA as [NA _].
    destruct (conn_at l (g_d s)) as [k|] eqn:K; [|discriminate]. destruct (step k e) as [[k' os0]|] eqn:S; [|discriminate].
    destruct (on_link_lift l (g_d s) (c_now (d_c (g_d s))) os0) as [O1 O2].
    destruct (plinked_step _ _ _ _ _ _ _ (flat_map (lift l (g_d s)) os0) _ L K S NA eq_refl O1 O2) as [L1 N1].
    destruct (returned os0) as [[u r]|]; [|injection E' as <- <-; exact L1]. destruct (waiter_of l u 0 (g_tasks s)) as [[t fs]|]; [|injection E' as <- <-; exact L1].
    destruct (wake ord t (AwCall l u) (of_result r) fs _) as [s2 os2] eqn:W. injection E' as <- <-. rewrite gstamp_app, app_assoc. eapply wake_plinked; [| |exact W]; [exact L1|exact (eq_sym N1)].
  - destruct (nth_error (g_tasks s) t) as [[c [w fs|x]]|] eqn:N; [|discriminate|discriminate]. destruct w as [l u|l|]; [discriminate| |].
    + destruct (conn_at l (g_d s)) as [k|] eqn:K; [|discriminate]. destruct r as [[]|ex].
      * destruct (step k EvConnect) as [[k' os0]|] eqn:S; [|discriminate]. assert (os0 = []) as -> by (cbn in S; congruence).
        destruct (plinked_step _ _ _ _ _ _ _ [] (c_now (d_c (g_d s))) L K S ltac:(discriminate) eq_refl eq_refl (fun _ _ => eq_refl)) as [L1 N1]. rewrite app_nil_r in L1.
        injection ST as W. cbn in S. injection S as <-. eapply wake_plinked; [| |exact W]; [exact L1|exact (eq_sym N1)].
      * injection ST as W. eapply wake_plinked; [|reflexivity|exact W]. exact L.
    + injection ST as W. eapply wake_plinked; [|reflexivity|exact W]. exact L.
  - destruct (forallb is_byte bs); [|discriminate]. assert (Q : forall l, on_link l (gstamp (c_now (d_c (g_d s))) (GPacket bs addr :: fst (unsolicited bs addr (g_d s)))) = []).
    { intros l. apply on_link_off. constructor; [intros ? ? E; discriminate|]. apply Forall_forall. intros x J l' y ->. revert J. unfold unsolicited.
      destruct (decode bs) as [m|ex]; [|intros [J|[]]; discriminate]. destruct addr as [a|]; [|intros [J|[]]; discriminate].
      destruct (is_msg _ _); [intros []|]. destruct (from_ip _ _) as [n|]; [|intros [J|[]]; discriminate]. destruct (truthy _); [|intros [J|[]]; discriminate].
      destruct (is_msg _ _); [|intros [J|[]]; discriminate]. destruct (zip_response _ _ _ _ _) as [z|ex]; cbn [bind]; [destruct (compose z)|]; cbn; intuition discriminate. }
    destruct (unsolicited bs addr (g_d s)) as [os1 [v|]]; cbn [fst] in Q.
    + destruct (spawn ord (GReport v) s) as [s2 os2] eqn:W. injection ST as <- <-.
      change (gstamp (c_now (d_c (g_d s))) (GPacket bs addr :: os1 ++ os2)) with (gstamp (c_now (d_c (g_d s))) ((GPacket bs addr :: os1) ++ os2)). rewrite gstamp_app, app_assoc.
      eapply spawn_plinked; [|reflexivity|exact W]. apply plinked_quiet; assumption.
    + injection ST as <- <-. apply plinked_quiet; assumption.
Qed.
Lemma exec_plinked es s tr : prompt_gexec ord gw0 es s tr -> plinked (g_d s) tr.
Proof.
  induction 1 as [|es s tr e s' os X IH ST PR]; [|eapply step_plinked; [exact IH| |exact ST]; intros dt E; exact (proj1 (PR _ E))]. split; [intros k []|]. intros l. exists []. destruct l as [[|i]|]; constructor.
Qed.
Lemma prompt_grun s0 es s tr : prompt_gexec ord s0 es s tr -> gexec ord s0 es s tr.
Proof. induction 1; [constructor|econstructor; eassumption]. Qed.

(** ** the time *)
Lemma spawn_now c s tr s' os : linked (g_d s) tr -> spawn ord c s = (s', os) -> g_now s' = g_now s.
Proof.
  intros L E. destruct (start ord (length (g_tasks s)) c (g_d s)) as [[d o1] a] eqn:S. rewrite (spawn_eq _ _ _ _ _ _ S) in E. injection E as <- <-.
  pose proof (good_start ord (length (g_tasks s)) c (g_d s)) as G. rewrite S in G. exact (proj2 (moves_linked _ _ _ _ G _ _ L eq_refl)).
Qed.
Lemma wake_now t w r fs s tr s' os : linked (g_d s) tr -> wake ord t w r fs s = (s', os) -> g_now s' = g_now s.
Proof.
  intros L E. unfold wake in E. pose proof (good_unwind ord t fs r (g_d s)) as G. destruct (unwind ord t r fs (g_d s)) as [[d o1] a]. injection E as <- <-.
  exact (proj2 (moves_linked _ _ _ _ G _ _ L eq_refl)).
Qed.
Lemma gstep_now s e s' os tr : linked (g_d s) tr -> gstep ord s e = Some (s', os) -> (forall dt, e <> GAdvance dt) -> g_now s' = g_now s.
Proof.
  intros L ST NAD. destruct e as [dt|c|l e|t r|bs addr]; [elim (NAD dt); reflexivity| | | |].
  - assert (E : Some (spawn ord c s) = Some (s', os)) by (cbn [gstep] in ST; destruct c; try exact ST; discriminate). injection E as E. eapply spawn_now; eassumption.
  - assert (NA : (forall dt, e <> EvAdvance dt) /\ e <> EvConnect) by (split; [intros dt|]; intros ->; discriminate). destruct NA as [NA NC].
    destruct (conn_at l (g_d s)) as [k|] eqn:K; [|cbn [gstep] in ST; rewrite K in ST; destruct e; discriminate].
    destruct (step k e) as [[k' os0]|] eqn:S; [|cbn [gstep] in ST; rewrite K in ST; destruct e; try rewrite S in ST; discriminate].
    rewrite (gconn_eq _ _ _ _ _ _ _ NA NC K S) in ST. destruct (on_link_lift l (g_d s) (c_now (d_c (g_d s))) os0) as [O1 O2].
    destruct (linked_step _ _ _ _ _ _ _ (flat_map (lift l (g_d s)) os0) _ L K S NA eq_refl O1 O2) as [L1 N1].
    destruct (returned os0) as [[u r]|]; [|injection ST as <- <-; exact N1]. destruct (waiter_of l u 0 (g_tasks s)) as [[t fs]|]; [|injection ST as <- <-; exact N1].
    destruct (wake ord t (AwCall l u) (of_result r) fs _) as [s2 os2] eqn:W. injection ST as <- <-. refine (eq_trans (wake_now _ _ _ _ _ _ _ _ _ W) N1). exact L1.
  - cbn [gstep] in ST. destruct (nth_error (g_tasks s) t) as [[c [w fs|x]]|] eqn:N; [|discriminate|discriminate]. destruct w as [l u|l|]; [discriminate| |].
    + destruct (conn_at l (g_d s)) as [k|] eqn:K; [|discriminate]. destruct r as [[]|ex].
      * destruct (step k EvConnect) as [[k' os0]|] eqn:S; [|discriminate]. assert (os0 = []) as -> by (cbn in S; congruence).
        destruct (linked_step _ _ _ _ _ _ _ [] (c_now (d_c (g_d s))) L K S ltac:(discriminate) eq_refl eq_refl (fun _ _ => eq_refl)) as [L1 N1]. rewrite app_nil_r in L1.
        injection ST as W. cbn in S. injection S as <-. refine (eq_trans (wake_now _ _ _ _ _ _ _ _ _ W) N1). exact L1.
      * injection ST as W. exact (wake_now _ _ _ _ _ _ _ _ L W).
    + injection ST as W. exact (wake_now _ _ _ _ _ _ _ _ L W).
  - cbn [gstep] in ST. destruct (forallb is_byte bs); [|discriminate]. destruct (unsolicited bs addr (g_d s)) as [os1 [v|]].
    + destruct (spawn ord (GReport v) s) as [s2 os2] eqn:W. injection ST as <- <-. exact (spawn_now _ _ _ _ _ L W).
    + injection ST as <- <-. reflexivity.
Qed.
(** the call a task makes is a call on the connection at the same moment *)
Lemma moves_called t d os d' : moves t d os d' -> forall l u c, In (GSub t l u c) os -> In (GAt l (OCall u c)) os.
Proof.
  induction 1 as [d|d o d' os H _ IH|d l0 k c0 u0 k' os d' os' E ST U M IH|d n0 a d' os _ IH|d nm ctl nodes conns d' os _ IH]; intros l u c J; [destruct J| | | |exact (IH _ _ _ J)].
  - destruct J as [->|J]; [destruct H|right; exact (IH _ _ _ J)].
  - destruct J as [J|J].
    + injection J as <- <- <-. right. apply in_or_app. left. apply in_map. subst u0. cbn [step] in ST. destruct (start_call _ _ _) as [k2 o2]. injection ST as _ <-. left. reflexivity.
    + right. apply in_app_or in J as [J|J]; [apply in_map_iff in J as (x & Q & _); discriminate|]. apply in_or_app. right. exact (IH _ _ _ J).
  - destruct J as [J|J]; [discriminate|right; exact (IH _ _ _ J)].
Qed.
Lemma in_link l n o tr : In (n, GAt l o) tr -> In (n, o) (on_link l tr).
Proof. intros J. unfold on_link. apply in_flat_map. exists (n, GAt l o). split; [exact J|]. rewrite same_link_refl. left. reflexivity. Qed.
Lemma no_task_in o os : Forall no_task os -> In o os -> task_of o = None.
Proof. intros F J. rewrite Forall_forall in F. exact (F _ J). Qed.
Lemma sub_called es s tr : gexec ord gw0 es s tr -> forall n t l u c, In (n, GSub t l u c) tr -> In (n, OCall u c) (on_link l tr).
Proof.
  induction 1 as [|es s tr e s' os X IH ST]; intros n t l u c J; [destruct J|]. rewrite on_link_app. apply in_or_app. apply in_app_or in J as [J|J]; [left; exact (IH _ _ _ _ _ J)|right].
  apply in_link. apply in_map_iff in J as (o & E & J). injection E as <- ->. apply in_map. pose proof (step_case _ _ _ _ _ ST) as K. destruct K as [e s' os _ _ NT|e c0 d os a pre S NT _|e t0 c0 w fs r d1 d os a pre N _ _ NT U].
  - pose proof (no_task_in _ _ NT J). discriminate.
  - apply in_app_or in J as [J|[J|J]]; [pose proof (no_task_in _ _ NT J); discriminate|discriminate|]. apply in_app_or in J as [J|J]; [|destruct a; cbn in J; intuition discriminate].
    apply in_or_app. right. right. apply in_or_app. left. pose proof (good_start ord (length (g_tasks s)) c0 (g_d s)) as G. pose proof (start_ours _ _ _ _ _ _ _ S) as OU. rewrite Forall_forall in OU. pose proof (OU _ J) as ->. rewrite S in G.
    exact (moves_called _ _ _ _ G _ _ _ J).
  - apply in_app_or in J as [J|[J|J]]; [pose proof (no_task_in _ _ NT J); discriminate|discriminate|]. apply in_app_or in J as [J|J]; [|destruct a; cbn in J; intuition discriminate].
    apply in_or_app. right. right. apply in_or_app. left. pose proof (good_unwind ord t0 fs r d1) as G. pose proof (unwind_ours _ _ _ _ _ _ _ _ U) as OU. rewrite Forall_forall in OU. pose proof (OU _ J) as ->. rewrite U in G.
    exact (moves_called _ _ _ _ G _ _ _ J).
Qed.

(** ** sums *)
Definition tsum (big sub : gtrace) (t : nat) : Z := fold_right (fun x a => part big t (snd x) + a) 0 sub.
Lemma tsum_app big a b t : tsum big (a ++ b) t = tsum big a t + tsum big b t.
Proof. induction a as [|x a IH]; [reflexivity|]. cbn. fold (tsum big (a ++ b) t). fold (tsum big a t). lia. Qed.
Lemma part_pos big t o : 0 <= part big t o.
Proof. destruct o; cbn; try lia. destruct (Nat.eqb _ _); [apply allowance_pos|lia]. Qed.
Lemma tsum_pos big a t : 0 <= tsum big a t.
Proof. induction a as [|x a IH]; [reflexivity|]. cbn. fold (tsum big a t). pose proof (part_pos big t (snd x)). lia. Qed.
Lemma part_grow big x t o : part big t o <= part (big ++ x) t o.
Proof. destruct o; cbn; try lia. destruct (Nat.eqb _ _); [|lia]. rewrite on_link_app, allowance_app. pose proof (allowance_pos (on_link l x) u). lia. Qed.
Lemma tsum_grow big x a t : tsum big a t <= tsum (big ++ x) a t.
Proof. induction a as [|y a IH]; [reflexivity|]. cbn. fold (tsum big a t) (tsum (big ++ x) a t). pose proof (part_grow big x t (snd y)). lia. Qed.
Lemma total_tsum tr t : total tr t = tsum tr tr t. Proof. reflexivity. Qed.
Lemma total_more tr x a t : total tr t <= tsum (tr ++ x) (tr ++ a) t.
Proof. rewrite total_tsum, tsum_app. pose proof (tsum_grow tr x tr t). pose proof (tsum_pos (tr ++ x) a t). lia. Qed.

(** ** a call of the gateway ends in time *)
Definition since (tr : gtrace) (t : nat) (l : option nat) (u : nat) (n : Z) : Prop := exists a m c b, tr = a ++ (m, GSub t l u c) :: b /\ m <= n + tsum tr a t.
Definition sock (w : await) : Prop := match w with AwCall _ _ => False | _ => True end.
Definition due (s : gw) (tr : gtrace) : Prop := forall t c n, In (n, GCalled t c) tr ->
  (forall c' l u fs, nth_error (g_tasks s) t = Some (mkGT c' (GWait (AwCall l u) fs)) -> since tr t l u n) /\
  (forall c' w fs, nth_error (g_tasks s) t = Some (mkGT c' (GWait w fs)) -> sock w -> g_now s <= n + total tr t) /\
  (forall m r, In (m, GRet t r) tr -> m <= n + total tr t).
Lemma since_app tr t l u n x : since tr t l u n -> since (tr ++ x) t l u n.
Proof. intros (a & m & c & b & E & L). exists a, m, c, (b ++ x). split; [rewrite E, <- app_assoc; reflexivity|]. pose proof (tsum_grow tr x a t). lia. Qed.
Lemma since_total tr t l u n : since tr t l u n -> exists m c, In (m, GSub t l u c) tr /\ m + allowance (on_link l tr) u <= n + total tr t.
Proof.
  intros (a & m & c & b & E & L). exists m, c. split; [rewrite E; apply in_or_app; right; left; reflexivity|]. rewrite total_tsum. rewrite E at 3. rewrite tsum_app. cbn. fold (tsum tr b t). rewrite Nat.eqb_refl. pose proof (tsum_pos tr b t). lia.
Qed.
Lemma now_due es s tr t c n c' w fs : prompt_gexec ord gw0 es s tr -> due s tr -> In (n, GCalled t c) tr -> nth_error (g_tasks s) t = Some (mkGT c' (GWait w fs)) -> g_now s <= n + total tr t.
Proof.
  intros PX D J N. destruct (D _ _ _ J) as (D1 & D2 & _). destruct w as [l u|l|]; [|exact (D2 _ _ _ N I)|exact (D2 _ _ _ N I)].
  destruct (since_total _ _ _ _ _ (D1 _ _ _ _ N)) as (m & c0 & Q & L). pose proof (prompt_grun _ _ _ _ PX) as X. pose proof (sub_called _ _ _ X _ _ _ _ _ Q) as OC.
  destruct (exec_plinked _ _ _ PX) as [C PL]. destruct (PL l) as (evs & XL). destruct (held_runs _ _ t l u (exec_linked _ _ _ _ X) (proj1 (exec_held _ _ _ _ X) _ _ _ _ N)) as (k & _ & K & _ & R).
  pose proof (proj2 (ConnLive.in_time _ _ _ _ _ _ XL OC) (proj2 R)) as T. rewrite (cat_now _ _ C) in T. unfold g_now. lia.
Qed.
Lemma since_new tr n m t l u c os : In (GSub t l u c) os -> m <= n + total tr t -> since (tr ++ gstamp m os) t l u n.
Proof.
  intros J L. apply in_split in J as (a & b & ->). exists (tr ++ gstamp m a), m, c, (gstamp m b). split; [rewrite gstamp_app, <- app_assoc; reflexivity|].
  pose proof (total_more tr (gstamp m (a ++ GSub t l u c :: b)) (gstamp m a) t). lia.
Qed.
(** one task runs at [g_now s], the others wait on *)
Lemma due_run s tr t0 os a d os1 ts' c0 d1 : due s tr -> moves t0 d1 os1 d -> fresh t0 d1 (d, os1, a) -> c_now (d_c d) = g_now s ->
  (forall o, In o os -> task_of o = None \/ task_of o = Some t0) -> incl os1 os -> (forall n c, In (n, GCalled t0 c) (tr ++ gstamp (g_now s) os) -> g_now s <= n + total tr t0) ->
  nth_error ts' t0 = Some (mkGT c0 (pc_of a)) -> (forall t, t <> t0 -> nth_error ts' t = nth_error (g_tasks s) t) -> (forall m r, ~ In (m, GRet t0 r) tr) -> due (mkG d ts') (tr ++ gstamp (g_now s) os).
Proof.
  intros D M F NOW OT I1 B N1 N2 NR t c n J. assert (G : g_now (mkG d ts') = g_now s) by exact NOW. rewrite G. pose proof (total_more tr (gstamp (g_now s) os) (gstamp (g_now s) os) t) as TM. rewrite <- total_tsum in TM.
  destruct (Nat.eq_dec t t0) as [->|NE].
  - specialize (B _ _ J). cbn [g_tasks]. rewrite N1. split; [|split].
    + intros c' l u fs E. injection E as _ E. destruct a as [r|w gs]; [discriminate|]. injection E as -> ->. destruct F as (_ & _ & c1 & Q). eapply since_new; [apply I1; exact Q|exact B].
    + intros c' w fs E SK. lia.
    + intros m r Q. apply in_app_or in Q as [Q|Q]; [elim (NR _ _ Q)|]. apply in_map_iff in Q as (o & E & _). injection E as <- _. lia.
  - assert (OLD : forall m o, task_of o = Some t -> In (m, o) (tr ++ gstamp (g_now s) os) -> In (m, o) tr).
    { intros m o T Q. apply in_app_or in Q as [Q|Q]; [exact Q|]. apply in_map_iff in Q as (o' & E & Q). injection E as _ <-. destruct (OT _ Q) as [H|H]; congruence. }
    destruct (D t c n (OLD n (GCalled t c) eq_refl J)) as (D1 & D2 & D3). cbn [g_tasks]. rewrite (N2 _ NE). split; [|split].
    + intros c' l u fs E. apply since_app. exact (D1 _ _ _ _ E).
    + intros c' w fs E SK. specialize (D2 _ _ _ E SK). lia.
    + intros m r Q. specialize (D3 _ _ (OLD m (GRet t r) eq_refl Q)). lia.
Qed.
Lemma ours_task t os o : Forall (ours t) os -> In o os -> task_of o = None \/ task_of o = Some t.
Proof. intros F J. rewrite Forall_forall in F. specialize (F _ J). destruct o; cbn in *; auto; try contradiction; right; congruence. Qed.
Lemma exec_due es s tr : prompt_gexec ord gw0 es s tr -> due s tr.
Proof.
  induction 1 as [|es s tr e s' os PX IH ST PR]; [intros t c n []|]. pose proof (prompt_grun _ _ _ _ PX) as X. pose proof (exec_linked _ _ _ _ X) as LK.
  destruct (match e with GAdvance dt => Some dt | _ => None end) as [dt|] eqn:EA.
  - destruct e; try discriminate. injection EA as ->. destruct (PR _ eq_refl) as [_ SW]. cbn [gstep] in ST. destruct (Z.leb_spec 0 dt) as [P|P]; [|discriminate]. injection ST as <- <-. cbn [gstamp map]. rewrite app_nil_r.
    intros t c n J. destruct (IH _ _ _ J) as (D1 & D2 & D3). cbn [g_tasks]. split; [exact D1|]. split; [|exact D3]. intros c' w fs N SK. specialize (D2 _ _ _ N SK). unfold g_now in *. cbn [g_d d_c].
    assert (dt = 0 \/ 0 < dt) as [->|LT] by lia; [unfold tick; cbn; lia|]. exfalso. pose proof (proj1 (exec_held _ _ _ _ X) _ _ _ _ N) as H.
    destruct (env_step ord s t c' w fs (Ok tt) N) as (s' & os & _ & _ & _ & _ & _ & E & _); [destruct w; [destruct SK|exact H|exact I]|]. rewrite (SW LT t (Ok tt)) in E. discriminate.
  - assert (NOW : g_now s' = g_now s) by (eapply gstep_now; [exact LK|exact ST|intros dt ->; discriminate]). pose proof (step_case _ _ _ _ _ ST) as K.
    destruct K as [e s' os T _ NT|e c0 d os a pre S NT _|e t0 c0 w fs r d1 d os a pre N _ _ NT U].
    + intros t c n J. assert (OLD : forall m o, task_of o = Some t -> In (m, o) (tr ++ gstamp (g_now s) os) -> In (m, o) tr).
      { intros m o TO Q. apply in_app_or in Q as [Q|Q]; [exact Q|]. apply in_map_iff in Q as (o' & E & Q). injection E as _ <-. pose proof (no_task_in _ _ NT Q). congruence. }
      destruct (IH t c n (OLD n (GCalled t c) eq_refl J)) as (D1 & D2 & D3). rewrite T, NOW. pose proof (total_more tr (gstamp (g_now s) os) (gstamp (g_now s) os) t) as TM. rewrite <- total_tsum in TM. split; [|split].
      * intros c' l u fs E. apply since_app. exact (D1 _ _ _ _ E).
      * intros c' w fs E SK. specialize (D2 _ _ _ E SK). lia.
      * intros m r Q. specialize (D3 _ _ (OLD m (GRet t r) eq_refl Q)). lia.
    + pose proof (good_start ord (length (g_tasks s)) c0 (g_d s)) as G. pose proof (fresh_start ord (length (g_tasks s)) c0 (g_d s)) as F. pose proof (start_ours _ _ _ _ _ _ _ S) as OU. rewrite S in G, F.
      assert (NEW : forall m o, task_of o = Some (length (g_tasks s)) -> ~ In (m, o) tr).
      { intros m o TO Q. destruct (own_task ord _ _ _ (length (g_tasks s)) o X) as (c1 & p & N); [eapply in_own; [exact Q|unfold mine; rewrite TO; apply Nat.eqb_refl]|]. apply nth_lt in N. lia. }
      eapply (due_run s tr _ _ a d os _ c0 (g_d s) IH G F NOW).
      * intros o J. apply in_app_or in J as [J|[<-|J]]; [left; exact (no_task_in _ _ NT J)|right; reflexivity|]. apply in_app_or in J as [J|J]; [exact (ours_task _ _ _ OU J)|]. destruct a; [destruct J as [<-|[]]; right; reflexivity|destruct J].
      * intros o J. apply in_or_app. right. right. apply in_or_app. left. exact J.
      * intros n c J. apply in_app_or in J as [J|J]; [elim (NEW n (GCalled _ c) eq_refl J)|]. apply in_map_iff in J as (o & E & _). injection E as <- _. pose proof (tsum_pos tr tr (length (g_tasks s))). rewrite total_tsum. lia.
      * rewrite nth_snoc, Nat.eqb_refl. reflexivity.
      * intros t NE. rewrite nth_snoc. destruct (Nat.eqb_spec t (length (g_tasks s))); [contradiction|reflexivity].
      * intros m r. apply NEW. reflexivity.
    + pose proof (good_unwind ord t0 fs r d1) as G. pose proof (fresh_unwind ord t0 fs r d1) as F. pose proof (unwind_ours _ _ _ _ _ _ _ _ U) as OU. rewrite U in G, F.
      eapply (due_run s tr t0 _ a d os _ c0 d1 IH G F NOW).
      * intros o J. apply in_app_or in J as [J|[<-|J]]; [left; exact (no_task_in _ _ NT J)|right; reflexivity|]. apply in_app_or in J as [J|J]; [exact (ours_task _ _ _ OU J)|]. destruct a; [destruct J as [<-|[]]; right; reflexivity|destruct J].
      * intros o J. apply in_or_app. right. right. apply in_or_app. left. exact J.
      * intros n c J. apply in_app_or in J as [J|J]; [exact (now_due _ _ _ _ _ _ _ _ _ PX IH J N)|]. exfalso. apply in_map_iff in J as (o & E & J). injection E as _ ->.
        apply in_app_or in J as [J|[J|J]]; [pose proof (no_task_in _ _ NT J); discriminate|discriminate|]. apply in_app_or in J as [J|J]; [rewrite Forall_forall in OU; exact (OU _ J)|destruct a; cbn in J; intuition discriminate].
      * rewrite nth_upd, Nat.eqb_refl, N. reflexivity.
      * intros t NE. apply nth_upd_other. congruence.
      * intros m r0 Q. destruct (returned_done ord _ _ _ _ _ _ X Q) as (c1 & N'). congruence.
Qed.
Lemma in_time es s tr t c n : prompt_gexec ord gw0 es s tr -> In (n, GCalled t c) tr ->
  (forall m r, In (m, GRet t r) tr -> m <= n + total tr t) /\ ((forall m r, ~ In (m, GRet t r) tr) -> g_now s <= n + total tr t).
Proof.
  intros PX J. pose proof (exec_due _ _ _ PX) as D. split; [exact (proj2 (proj2 (D _ _ _ J)))|]. intros NR. pose proof (prompt_grun _ _ _ _ PX) as X.
  destruct (open_waits ord _ _ _ t X) as (c1 & w & fs & N & _); [split; [eauto|exact NR]|]. exact (now_due _ _ _ _ _ _ _ _ _ PX D J N).
Qed.
(** ** executable form of prompt runs, for examples *)
Definition gidle (s : gw) (dt : Z) : bool :=
  idle (d_c (g_d s)) dt && forallb (fun k => idle k dt) (d_links (g_d s)) && forallb (fun x => match gt_pc x with GWait (AwCall _ _) _ | GDone _ => true | _ => false end) (g_tasks s).
Fixpoint prompt_grun_of (s : gw) (es : list gevent) : option (gw * gtrace) :=
  match es with
  | [] => Some (s, [])
  | e :: es' => if match e with GAdvance dt => gidle s dt | _ => true end then
      match gstep ord s e with
      | Some (s', os) => match prompt_grun_of s' es' with Some (s'', tr) => Some (s'', gstamp (g_now s) os ++ tr) | None => None end
      | None => None
      end else None
  end.
Lemma prompt_gapp s0 es1 s1 tr1 es2 s2 tr2 : prompt_gexec ord s0 es1 s1 tr1 -> prompt_gexec ord s1 es2 s2 tr2 -> prompt_gexec ord s0 (es1 ++ es2) s2 (tr1 ++ tr2).
Proof. intros A B. induction B as [|es s tr e s' os B IH E Q]; [rewrite !app_nil_r; exact A|]. rewrite !app_assoc. eapply GR_snoc; eassumption. Qed.
Lemma prompt_grun_ok es : forall s s' tr, prompt_grun_of s es = Some (s', tr) -> prompt_gexec ord s es s' tr.
Proof.
  induction es as [|e es IH]; intros s s' tr E; cbn [prompt_grun_of] in E; [injection E as <- <-; constructor|].
  destruct (match e with GAdvance dt => gidle s dt | _ => true end) eqn:I; [|discriminate].
  destruct (gstep ord s e) as [[s1 os]|] eqn:S; [|discriminate]. destruct (prompt_grun_of s1 es) as [[s2 tr2]|] eqn:R; [|discriminate]. injection E as <- <-.
  change (e :: es) with ([e] ++ es). eapply prompt_gapp; [|exact (IH _ _ _ R)].
  refine (GR_snoc ord s [] s [] e s1 os (GR_nil ord s) S _). intros dt ->. apply andb_prop in I as [I I3]. apply andb_prop in I as [I1 I2]. split.
  - intros d [i|] k u L K; cbn in K; [|injection K as <-; exact (idle_ok _ _ _ _ I1 L)]. exact (idle_ok _ _ _ _ (proj1 (forallb_forall _ _) I2 _ (nth_error_In _ _ K)) L).
  - intros _ t r. cbn [gstep]. destruct (nth_error (g_tasks s) t) as [[c [w fs|x]]|] eqn:N; [|reflexivity|reflexivity].
    pose proof (proj1 (forallb_forall _ _) I3 _ (nth_error_In _ _ N)) as Q. cbn in Q. destruct w; [reflexivity|discriminate|discriminate].
Qed.
End Links.
