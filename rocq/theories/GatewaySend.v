(** Commands sent to a node (C96). *)
From Coq Require Import String ZArith List Bool Lia.
From Verif Require Import Py BitStream Schema Registry Codec SpecBits SpecWire Waiter Conn SpecConn ConnLemmas ConnPacket ConnAck ConnInv ConnCases ConnCalm ConnProps ConnCut
  Gateway SpecGateway SpecGatewayNm GatewayProofs GatewayLinks GatewayStory GatewayNm GatewayIp GatewayNode GatewayAnswer NodeSendM.
Import ListNotations.
Open Scope list_scope.
Open Scope string_scope.
Open Scope list_scope.
Open Scope Z_scope.

Definition no_sub (o : gobs) : Prop := match o with GSub _ (Some _) _ _ => False | _ => True end.
Lemma no_link_sub os : Forall no_link os -> Forall no_sub os. Proof. apply Forall_impl. intros []; cbn; auto. Qed.
Section Send.
Variable ord : list Z -> list Z.
(** ** where commands to nodes come from *)
Lemma start_kind t c d0 d os a : start ord t c d0 = (d, os, a) -> d_conns d = d_conns d0 /\
  (Forall no_sub os \/ exists n l cmd sep dep tmo, c = GSendTo n cmd sep dep tmo /\ In (n, l) (d_conns d0) /\ sub t (Some l) (CSend cmd sep dep tmo) d0 = (d, os, a)).
Proof.
  intros ES. destruct (aims c) as [n|] eqn:A.
  - destruct c; cbn [aims start] in *; try discriminate; injection A as ->.
    + destruct (link_start _ _ _ _ _ _ ES) as ([S1 _] & S2 & _). split; [exact S1|left; apply no_link_sub; exact S2].
    + destruct (start_link t n d0) as [[d1 os1] a1] eqn:SL. destruct (link_start _ _ _ _ _ _ SL) as ([S1 _] & S2 & [(l & -> & -> & -> & G)|(G & [(e' & ->)|(u & ->)])]); cbn [under] in ES.
      * unfold send_over in ES. destruct (sub t (Some l) (CSend cmd sep dep tmo) d0) as [[d2 os2] a2] eqn:SB. cbn in ES. injection ES as <- <- <-. pose proof (sub_same t (Some l) (CSend cmd sep dep tmo) d0) as S. rewrite SB in S.
        split; [exact (proj1 S)|]. right. do 6 eexists. split; [reflexivity|]. split; [apply dget_in; exact G|exact SB].
      * cbn in ES. rewrite app_nil_r in ES. injection ES as <- <- <-. split; [exact S1|left; apply no_link_sub; exact S2].
      * injection ES as <- <- <-. split; [exact S1|left; apply no_link_sub; exact S2].
  - pose proof (tame_start ord t c d0 A) as ([T1 _] & T2 & _). rewrite ES in T1, T2. split; [exact T1|left; apply no_link_sub; exact T2].
Qed.
Lemma wake_kind s tr t c w fs r d1 d os a : linv s tr -> nth_error (g_tasks s) t = Some (mkGT c (GWait w fs)) -> unwind ord t r fs d1 = (d, os, a) ->
  (Forall no_sub os /\ d_conns d = d_conns d1) \/
  exists n l v, w = AwOpen (Some l) /\ r = Ok v /\ d_conns d = dset Z.eqb n l (d_conns d1) /\
    (os = [] \/ exists cmd sep dep tmo, c = GSendTo n cmd sep dep tmo /\ sub t (Some l) (CSend cmd sep dep tmo) (set_conns (dset Z.eqb n l (d_conns d1)) d1) = (d, os, a)).
Proof.
  intros L EN EU. pose proof (L7 _ _ L _ _ _ EN) as SH. unfold shape in SH. destruct (aims c) as [n|] eqn:A.
  - destruct SH as [SH|[(r0 & E)|(l & u & E)]]; [|discriminate E|].
    + remember (GWait w fs) as p eqn:EP in SH. destruct SH as [w0 NW|l M]; injection EP as E1 E2; [subst w0 fs|subst w fs].
      * left. cbn [unwind] in EU. destruct r as [[m|l]|e'].
        -- cbn [frame_step] in EU. destruct (getattr m "ipv6") eqn:IPV; cbn [frame_step ret] in EU; rewrite ?err_rest in EU; cbn in EU; injection EU as <- <- <-; (split; [repeat constructor|reflexivity]).
        -- cbn [frame_step ret] in EU. rewrite err_rest in EU. cbn in EU. injection EU as <- <- <-. split; [repeat constructor|reflexivity].
        -- assert (E1 : forall f, (f = FIp n \/ f = FLink n) -> frame_step ord t f (Err e') d1 = ret (Err e') d1) by (intros f [->| ->]; destruct e'; reflexivity).
           rewrite (E1 (FIp n)) in EU by auto. cbn [ret] in EU. rewrite (E1 (FLink n)) in EU by auto. cbn [ret] in EU. rewrite err_rest in EU. cbn in EU. injection EU as <- <- <-. split; [constructor|reflexivity].
      * destruct r as [v|e'].
        -- right. exists n, l, v. split; [reflexivity|]. split; [reflexivity|]. destruct c; cbn [aims rest_of] in *; try discriminate; injection A as ->; cbn [unwind frame_step ret] in EU.
           ++ injection EU as <- <- <-. auto.
           ++ unfold send_over in EU. pose proof (sub_same t (Some l) (CSend cmd sep dep tmo) (set_conns (dset Z.eqb n l (d_conns d1)) d1)) as [S _].
              destruct (sub t (Some l) (CSend cmd sep dep tmo) (set_conns (dset Z.eqb n l (d_conns d1)) d1)) as [[d2 os2] [r2|w2 fs2]] eqn:SB; cbn in EU, S; injection EU as <- <- <-; rewrite ?app_nil_r; (split; [exact S|right; do 4 eexists; split; [reflexivity|exact SB]]).
        -- left. cbn [unwind] in EU. assert (E1 : frame_step ord t (FOpen n l) (Err e') d1 = ret (Err e') d1) by (destruct e'; reflexivity). rewrite E1 in EU. cbn [ret] in EU. rewrite err_rest in EU. injection EU as <- <- <-. split; [constructor|reflexivity].
    + injection E as -> ->. cbn in EU. injection EU as <- <- <-. left. split; [constructor|reflexivity].
  - destruct SH as [P NW]. pose proof (tame_unwind ord t fs P r d1) as ([T1 _] & T2 & _). rewrite EU in T1, T2. left. split; [apply no_link_sub; exact T2|exact T1].
Qed.
(** the table holds open connections only *)
Lemma table_open es s tr : gexec ord gw0 es s tr -> forall n l, In (n, l) (d_conns (g_d s)) -> opened (Some l) tr.
Proof.
  induction 1 as [|es s tr e s' os X IH ST]; [intros n l []|]. pose proof (exec_linv _ _ _ _ X) as L. intros n l J. apply opened_app. apply step_case in ST.
  destruct ST as [e s' os ET (_ & _ & _ & ST4 & ST5) NT|e c d os a pre ES NT EV|e t c w fs r d1 d os a pre EN (_ & _ & _ & ST4 & ST5) BK NT EU]; cbn [g_d] in J.
  - rewrite ST4 in J. left. exact (IH _ _ J).
  - destruct (start_kind _ _ _ _ _ _ ES) as [E _]. rewrite E in J. left. exact (IH _ _ J).
  - destruct (wake_kind _ _ _ _ _ _ _ _ _ _ _ L EN EU) as [[_ E]|(n0 & l0 & v & -> & -> & E & _)]; rewrite E, ST4 in J; [left; exact (IH _ _ J)|].
    apply in_set in J as [J|J]; [|left; exact (IH _ _ J)]. injection J as -> ->. right. apply opened_stamp. exists t, v. apply in_or_app. right. left. reflexivity.
Qed.
(** ** the packet follows the call *)
Definition framed (u : nat) (c : call) (tr : trace) : Prop :=
  exists a n0 rest, (tr = a ++ (n0, OCall u c) :: rest) /\
    ((exists e rest', rest = (n0, ORet u (RExc e)) :: rest') \/
     (exists cmd sep dep bs rest', payload c = Some (cmd, sep, dep) /\ send_bytes ((sends a + 1) mod 256) sep dep cmd = Ok bs /\ rest = (n0, OWire (Some u) bs) :: rest')).
Lemma framed_app u c a b : framed u c a -> framed u c (a ++ b).
Proof.
  intros (x & n0 & rest & -> & H). exists x, n0, (rest ++ b). split; [rewrite <- app_assoc; reflexivity|].
  destruct H as [(e & r & ->)|(cmd & sep & dep & bs & r & P & S & ->)]; [left; exists e, (r ++ b); reflexivity|right; exists cmd, sep, dep, bs, (r ++ b); split; [exact P|split; [exact S|reflexivity]]].
Qed.
Lemma call_framed evs k tr c k' xs : exec conn0 evs k tr -> c_up k = true -> sending c = true -> step k (EvCall c) = Some (k', xs) -> framed (length (c_tasks k)) c (tr ++ stamp (c_now k) xs).
Proof.
  intros X UP SC ST. destruct (exec_good _ _ _ X) as [G A]. pose proof G as (_ & SQ & _). exists tr, (c_now k). pose proof (good_case _ _ _ _ _ G ST) as K.
  inversion K; subst; try discriminate SC; rewrite SQ, land255 in *; unfold conn_send; try rewrite UP; cbn [stamp map app]; eexists; (split; [reflexivity|]).
  - left. eauto.
  - right. do 5 eexists. split; [eassumption|]. split; [eassumption|reflexivity].
  - right. do 5 eexists. split; [eassumption|]. split; [eassumption|reflexivity].
Qed.
Lemma sub_framed t l c d d' os a tr pre post n u : linked d tr -> upat (Some l) d = true -> sending c = true -> n = c_now (d_c d) -> sub t (Some l) c d = (d', os, a) -> In (GSub t (Some l) u c) os ->
  (forall l, on_link l (gstamp n pre) = []) -> framed u c (on_link (Some l) (tr ++ gstamp n (pre ++ os ++ post))).
Proof.
  intros [C X] UP SC -> SB J Q. destruct (sub_own _ _ _ _ _ _ _ SB) as [(_ & _ & -> & _)|(k & k' & xs & K & ST & -> & _)]; [destruct J|].
  destruct J as [J|J]; [|apply in_map_iff in J as (? & J & _); discriminate J]. injection J as <-. destruct (X (Some l)) as (evs & XL). unfold cat in XL. rewrite K in XL. unfold upat in UP. rewrite K in UP.
  pose proof (call_framed _ _ _ _ _ _ XL UP SC ST) as F. rewrite on_link_app, !gstamp_app, !on_link_app, Q. cbn [app]. rewrite app_assoc. apply framed_app.
  change (gstamp (c_now (d_c d)) (GSub t (Some l) (length (c_tasks k)) c :: map (GAt (Some l)) xs)) with (gstamp (c_now (d_c d)) [GSub t (Some l) (length (c_tasks k)) c] ++ gstamp (c_now (d_c d)) (map (GAt (Some l)) xs)).
  rewrite on_link_app, on_link_at, one_off by discriminate. cbn [app]. rewrite <- (clocks_at _ _ _ C K). exact F.
Qed.
Lemma no_sub_in os t l u c : Forall no_sub os -> ~ In (GSub t (Some l) u c) os. Proof. rewrite Forall_forall. intros F J. exact (F _ J). Qed.
Lemma no_task_sub os t l u c : Forall no_task os -> ~ In (GSub t l u c) os. Proof. rewrite Forall_forall. intros F J. discriminate (F _ J). Qed.
Lemma said_sub t a t' l u c : ~ In (GSub t' l u c) (said t a). Proof. destruct a; cbn; [intros [J|[]]; discriminate|intros []]. Qed.
Lemma spawn_framed s tr n c s' os t l u c' : linked (g_d s) tr -> n = c_now (d_c (g_d s)) -> (forall n l, In (n, l) (d_conns (g_d s)) -> upat (Some l) (g_d s) = true) -> spawn ord c s = (s', os) ->
  In (GSub t (Some l) u c') os -> framed u c' (on_link (Some l) (tr ++ gstamp n os)).
Proof.
  intros LK N UP E J. destruct (start ord (length (g_tasks s)) c (g_d s)) as [[d o1] a] eqn:S. rewrite (spawn_eq _ _ _ _ _ _ S) in E. injection E as <- <-. destruct J as [J|J]; [discriminate|].
  apply in_app_or in J as [J|J]; [|elim (said_sub _ _ _ _ _ _ J)]. destruct (start_kind _ _ _ _ _ _ S) as [_ [F|(n0 & l0 & cmd & sep & dep & tmo & -> & I0 & SB)]]; [elim (no_sub_in _ _ _ _ _ F J)|].
  pose proof (sub_link _ _ _ _ _ _ _ SB) as (_ & SO & _). destruct (SO _ J) as (-> & E & ->). injection E as ->. 
  exact (sub_framed _ _ (CSend cmd sep dep tmo) _ _ _ _ _ [GCalled (length (g_tasks s)) (GSendTo n0 cmd sep dep tmo)] (said (length (g_tasks s)) a) n u LK (UP _ _ I0) eq_refl N SB J (one_off n (GCalled (length (g_tasks s)) (GSendTo n0 cmd sep dep tmo)) (fun l x H => ltac:(discriminate H)))).
Qed.
Lemma exec_framed es s tr : gexec ord gw0 es s tr -> forall k t l u c, In (k, GSub t (Some l) u c) tr -> framed u c (on_link (Some l) tr).
Proof.
  induction 1 as [|es s tr e s' os X IH ST]; [intros k t l u c []|]. intros k0 t l u c J. pose proof (exec_linv _ _ _ _ X) as L. pose proof (exec_linked _ _ _ _ X) as LK.
  assert (UP : forall n l, In (n, l) (d_conns (g_d s)) -> upat (Some l) (g_d s) = true) by (intros n l0 I0; apply (exec_socket _ _ _ _ _ X); exact (table_open _ _ _ X _ _ I0)).
  apply in_stamped in J as [J|[-> J]]; [rewrite on_link_app; apply framed_app; exact (IH _ _ _ _ _ J)|]. clear IH.
  assert (WK : forall t0 c0 w r fs d1 tr1 s2 o2, linked d1 tr1 -> c_now (d_c d1) = g_now s -> nth_error (g_tasks s) t0 = Some (mkGT c0 (GWait w fs)) ->
      (forall l0 v, w = AwOpen (Some l0) -> r = Ok v -> upat (Some l0) d1 = true) ->
      wake ord t0 w r fs (mkG d1 (g_tasks s)) = (s2, o2) -> In (GSub t (Some l) u c) o2 -> framed u c (on_link (Some l) (tr1 ++ gstamp (g_now s) o2))).
  { intros t0 c0 w r fs d1 tr1 s2 o2 L1 N1 EN U1 W J2. unfold wake in W. cbn [g_d] in W. destruct (unwind ord t0 r fs d1) as [[d o1] a] eqn:EU. injection W as <- <-. destruct J2 as [J2|J2]; [discriminate|].
    apply in_app_or in J2 as [J2|J2]; [|elim (said_sub _ _ _ _ _ _ J2)].
    destruct (wake_kind _ _ _ _ _ _ _ _ _ _ _ L EN EU) as [[F _]|(n0 & l0 & v & -> & -> & _ & [->|(cmd & sep & dep & tmo & -> & SB)])]; [elim (no_sub_in _ _ _ _ _ F J2)|destruct J2|].
    pose proof (sub_link _ _ _ _ _ _ _ SB) as (_ & SO & _). destruct (SO _ J2) as (-> & E & ->). injection E as ->.
    assert (L2 : linked (set_conns (dset Z.eqb n0 l0 (d_conns d1)) d1) tr1) by exact L1.
    exact (sub_framed _ _ (CSend cmd sep dep tmo) _ _ _ _ _ [GBack t0 (AwOpen (Some l0)) (Ok v)] (said t0 a) (g_now s) u L2 (U1 _ _ eq_refl eq_refl) eq_refl (eq_sym N1) SB J2 (one_off (g_now s) (GBack t0 (AwOpen (Some l0)) (Ok v)) (fun l x H => ltac:(discriminate H)))). }
  destruct e as [dt|c0|l0 e|t0 r|bs addr]; cbn [gstep] in ST.
  - destruct (0 <=? dt); [|discriminate]. injection ST as <- <-. destruct J.
  - assert (E : Some (spawn ord c0 s) = Some (s', os)) by (destruct c0; try exact ST; discriminate). injection E as E. exact (spawn_framed _ _ _ _ _ _ _ _ _ _ LK eq_refl UP E J).
  - assert (NA : (forall dt, e <> EvAdvance dt) /\ e <> EvConnect) by (split; [intros dt|]; intros ->; discriminate).
    assert (E' : match conn_at l0 (g_d s) with None => None | Some k => match step k e with None => None | Some (k', os) =>
        match returned os with None => Some (mkG (set_conn l0 k' (g_d s)) (g_tasks s), flat_map (lift l0 (g_d s)) os)
        | Some (u, r) => match waiter_of l0 u 0 (g_tasks s) with None => Some (mkG (set_conn l0 k' (g_d s)) (g_tasks s), flat_map (lift l0 (g_d s)) os)
          | Some (t, fs) => let (s2, os2) := wake ord t (AwCall l0 u) (of_result r) fs (mkG (set_conn l0 k' (g_d s)) (g_tasks s)) in Some (s2, flat_map (lift l0 (g_d s)) os ++ os2) end end end end = Some (s', os))
      by (destruct e; try exact ST; discriminate). clear ST. destruct NA as [NA _].
    destruct (conn_at l0 (g_d s)) as [k|] eqn:K; [|discriminate]. destruct (step k e) as [[k' os0]|] eqn:S; [|discriminate].
    destruct (on_link_lift l0 (g_d s) (c_now (d_c (g_d s))) os0) as [O1 O2].
    destruct (linked_step _ _ _ _ _ _ _ (flat_map (lift l0 (g_d s)) os0) _ LK K S NA eq_refl O1 O2) as [L1 N1].
    pose proof (lift_no_task l0 (g_d s) os0) as NT.
    destruct (returned os0) as [[u0 r]|]; [|injection E' as <- <-; elim (no_task_sub _ _ _ _ _ NT J)]. destruct (waiter_of l0 u0 0 (g_tasks s)) as [[t0 fs]|] eqn:W0; [|injection E' as <- <-; elim (no_task_sub _ _ _ _ _ NT J)].
    destruct (waiter_of_some _ _ _ _ _ _ W0) as (c0 & _ & EN). rewrite Nat.sub_0_r in EN.
    destruct (wake ord t0 (AwCall l0 u0) (of_result r) fs _) as [s2 os2] eqn:W. injection E' as <- <-. apply in_app_or in J as [J|J]; [elim (no_task_sub _ _ _ _ _ NT J)|].
    rewrite gstamp_app, app_assoc. eapply WK; [exact L1|exact N1|exact EN|discriminate|exact W|exact J].
  - destruct (nth_error (g_tasks s) t0) as [[c0 [w fs|x]]|] eqn:EN; [|discriminate|discriminate]. destruct w as [l0 u0|l0|]; [discriminate| |].
    + destruct (conn_at l0 (g_d s)) as [k|] eqn:K; [|discriminate]. destruct r as [[]|ex].
      * destruct (step k EvConnect) as [[k' os0]|] eqn:S; [|discriminate]. assert (os0 = []) as -> by (cbn in S; congruence).
        destruct (linked_step _ _ _ _ _ _ _ [] (c_now (d_c (g_d s))) LK K S ltac:(discriminate) eq_refl eq_refl (fun _ _ => eq_refl)) as [L1 N1]. rewrite app_nil_r in L1.
        assert (CU : c_up k' = true) by (cbn in S; injection S as <-; reflexivity).
        injection ST as W. eapply WK; [exact L1|exact N1|exact EN| |exact W|exact J].
        intros l1 v E _. injection E as ->. rewrite (upat_set _ _ _ _ _ K), same_link_refl. exact CU.
      * injection ST as W. eapply WK with (r := Err ex); [exact LK|reflexivity|exact EN|discriminate|exact W|exact J].
    + injection ST as W. assert (W' : wake ord t0 AwListen (match r with Ok _ => Ok (GV VNone) | Err e => Err e end) fs (mkG (g_d s) (g_tasks s)) = (s', os)) by (destruct s; exact W).
      eapply WK; [exact LK|reflexivity|exact EN|discriminate|exact W'|exact J].
  - destruct (forallb is_byte bs); [|discriminate]. pose proof (unsol_no_task bs addr (g_d s)) as NT. destruct (unsolicited bs addr (g_d s)) as [os1 [v|]]; cbn [fst] in NT.
    + destruct (spawn ord (GReport v) s) as [s2 os2] eqn:W. injection ST as <- <-. exfalso. destruct J as [J|J]; [discriminate|]. apply in_app_or in J as [J|J]; [exact (no_task_sub _ _ _ _ _ NT J)|].
      destruct (start ord (length (g_tasks s)) (GReport v) (g_d s)) as [[d o1] a] eqn:S. rewrite (spawn_eq _ _ _ _ _ _ S) in W. injection W as <- <-. destruct J as [J|J]; [discriminate|]. apply in_app_or in J as [J|J]; [|exact (said_sub _ _ _ _ _ _ J)].
      destruct (start_kind _ _ _ _ _ _ S) as [_ [F|(n0 & l0 & cmd & sep & dep & tmo & E & _)]]; [exact (no_sub_in _ _ _ _ _ F J)|discriminate].
    + injection ST as <- <-. exfalso. destruct J as [J|J]; [discriminate|]. exact (no_task_sub _ _ _ _ _ NT J).
Qed.
(** ** what a send returns *)
Definition send_hist (t : nat) (c : gcall) (p : gpc) (h : list gobs) : Prop :=
  match c with
  | GSendTo n cmd sep dep tmo =>
      match p with
      | GWait w fs => (fs = [] /\ exists l u, w = AwCall (Some l) u /\ In (GSub t (Some l) u (CSend cmd sep dep tmo)) h) \/
          (exists m, fs = [FIp m; FLink n; FSendTo cmd sep dep tmo]) \/ exists l, fs = [FOpen n l; FSendTo cmd sep dep tmo]
      | GDone r => (exists e, r = Err e) \/ exists l u, In (GSub t (Some l) u (CSend cmd sep dep tmo)) h /\ In (GBack t (AwCall (Some l) u) r) h
      end
  | _ => True
  end.
Lemma sub_hist t l n cmd sep dep tmo d d' os a h : sub t (Some l) (CSend cmd sep dep tmo) d = (d', os, a) -> send_hist t (GSendTo n cmd sep dep tmo) (pc_of a) (h ++ filter (mine t) os ++ said t a).
Proof.
  intros E. destruct (sub_mine _ _ _ _ _ _ _ E) as [(_ & -> & _)|(u & F & [->|(e & -> & _)])]; cbn [pc_of send_hist]; try (left; eexists; reflexivity).
  rewrite F. left. split; [reflexivity|]. exists l, u. split; [reflexivity|]. apply in_or_app. right. left. reflexivity.
Qed.
Lemma send_story es s tr : gexec ord gw0 es s tr -> forall t c p, nth_error (g_tasks s) t = Some (mkGT c p) -> send_hist t c p (own t tr).
Proof.
  intros X. refine (proj1 (story ord send_hist _ _ es s tr X)); clear.
  - intros t c d d' os a S. destruct c; try exact I. cbn [start] in S. destruct (start_link t n d) as [[d1 os1] a1] eqn:SL. destruct (link_start _ _ _ _ _ _ SL) as (_ & _ & [(l & -> & -> & -> & G)|(G & [(e' & ->)|(u & ->)])]); cbn [under] in S.
    + unfold send_over in S. destruct (sub t (Some l) (CSend cmd sep dep tmo) d) as [[d2 os2] a2] eqn:SB. cbn in S. injection S as <- <- <-. exact (sub_hist _ _ n _ _ _ _ _ _ _ _ [GCalled t (GSendTo n cmd sep dep tmo)] SB).
    + cbn in S. injection S as <- <- <-. left. eexists. reflexivity.
    + injection S as <- <- <-. right. left. eexists. reflexivity.
  - intros t c w fs r d d' os a h pre H B U. destruct c; try exact I. cbn [send_hist] in H. destruct H as [(-> & l & u & -> & J)|[(m & ->)|(l & ->)]].
    + cbn in U. injection U as <- <- <-. right. exists l, u. split; apply in_or_app; [left; exact J|right; left; reflexivity].
    + cbn [unwind] in U. destruct r as [[x|l]|e'].
      * cbn [frame_step] in U. destruct (getattr x "ipv6") eqn:IPV; cbn in U; injection U as <- <- <-; try (left; eexists; reflexivity). right. right. eexists. reflexivity.
      * cbn in U. injection U as <- <- <-. left. eexists. reflexivity.
      * destruct e'; cbn in U; injection U as <- <- <-; left; eexists; reflexivity.
    + cbn [unwind] in U. destruct r as [v|e']; [|destruct e'; cbn in U; injection U as <- <- <-; left; eexists; reflexivity]. cbn [frame_step ret unwind] in U. unfold send_over in U.
      destruct (sub t (Some l) (CSend cmd sep dep tmo) _) as [[d2 os2] [r2|w2 fs2]] eqn:SB; cbn in U; injection U as <- <- <-; rewrite ?app_nil_r; change (GBack t w (Ok v) :: ?x) with ([GBack t w (Ok v)] ++ x).
      * pose proof (sub_hist _ _ n _ _ _ _ _ _ _ _ (h ++ [GBack t w (Ok v)]) SB) as Q. rewrite <- app_assoc in Q. exact Q.
      * pose proof (sub_hist _ _ n _ _ _ _ _ _ _ _ (h ++ [GBack t w (Ok v)]) SB) as Q. rewrite <- app_assoc in Q. cbn [pc_of said] in Q |- *. rewrite ?app_nil_r in *. exact Q.
Qed.
Lemma one_wire tr u n0 c a bs x : always (fun a x => match x with (n, OWire (Some t) bs) => exists a' c, a = a' ++ [(n, OCall t c)] /\ sending c = true | _ => True end) tr -> always meaning tr ->
  tr = a ++ (n0, OCall u c) :: (n0, OWire (Some u) bs) :: x -> forall m w, ~ In (m, OWire (Some u) w) (a ++ x).
Proof.
  intros O A E m w J. assert (K : exists y z, tr = y ++ (m, OWire (Some u) w) :: z /\ (length y < length a \/ length a + 1 < length y)%nat).
  { apply in_app_or in J as [J|J]; apply in_split in J as (p & q & ->).
    - exists p, (q ++ (n0, OCall u c) :: (n0, OWire (Some u) bs) :: x). split; [rewrite E, <- app_assoc; reflexivity|]. left. rewrite app_length. cbn. lia.
    - exists (a ++ (n0, OCall u c) :: (n0, OWire (Some u) bs) :: p), q. split; [rewrite E, <- app_assoc; reflexivity|]. right. rewrite app_length. cbn. lia. }
  destruct K as (y & z & EY & LY). destruct (O _ _ _ EY) as (a' & c' & EA & _). rewrite EA, <- app_assoc in EY. cbn [app] in EY.
  destruct (split_unique _ A _ _ _ _ _ _ _ _ _ E EY) as (<- & _). rewrite EA, app_length in LY. cbn in LY. lia.
Qed.
Lemma send_bool es s tr t id ep cmd tmo n n' r b v : gexec ord gw0 es s tr -> In (n, GCalled t (send_call id ep cmd tmo)) tr -> In (n', GRet t r) tr -> send_result r = Ok (VBool v) -> 0 <= ep < 128 -> encodes cmd b ->
  exists l u cbs a n0 x n1 rest, made id l tr /\ compose cmd = Ok cbs /\ bits_of cbs = b /\
    on_link (Some l) tr = a ++ (n0, OCall u (CSend cmd 0 ep tmo)) :: (n0, OWire (Some u) (packet ((sends a + 1) mod 256) 0 ep cbs)) :: x ++ (n1, ORet u (RBool v)) :: rest /\
    (if v then exists m bs, In (m, ORecv bs) x /\ acknowledges bs ((sends a + 1) mod 256)
     else ((forall m d, ~ In (m, ORearm u d) x) /\ n0 + tmo <= n1) \/ exists m d y z, x = y ++ (m, ORearm u d) :: z /\ (forall m' d', ~ In (m', ORearm u d') z) /\ m + 1000 * d <= n1) /\
    forall m w, ~ In (m, OWire (Some u) w) (a ++ x ++ (n1, ORet u (RBool v)) :: rest).
Proof.
  intros X C R SR HE EN. unfold send_call in C. destruct (called_call _ _ _ _ _ _ _ X C) as (p & E). destruct (returned_done _ _ _ _ _ _ _ X R) as (c & E'). rewrite E in E'. injection E' as <- ->.
  pose proof (send_story _ _ _ X _ _ _ E) as H. cbn [send_hist] in H. destruct H as [(e & ->)|(l & u & JS & JB)]; [discriminate|]. clear E R.
  assert (r = Ok (GV (VBool v))) as -> by (destruct r as [[?|?]|?]; cbn in SR; congruence).
  apply own_in in JS as (_ & k0 & JS). apply own_in in JB as (_ & k1 & JB). pose proof (exec_framed _ _ _ X _ _ _ _ _ JS) as FR.
  destruct (proj1 (node_links _ _ _ _ X) _ _ _ _ _ JS) as (k' & id' & cmd' & sep' & dep' & tmo' & C' & EC & M). injection EC as <- <- <- <-.
  destruct (called_call _ _ _ _ _ _ _ X C) as (p1 & E1). destruct (called_call _ _ _ _ _ _ _ X C') as (p2 & E2). rewrite E1 in E2. injection E2 as <- _.
  destruct (pairs _ _ _ _ X) as [P1 P2]. apply P1 in JS. destruct (P2 _ _ _ _ _ JB) as (r1 & ER1 & JR). clear P1 P2 JB.
  destruct (exec_linked _ _ _ _ X) as [_ XL]. destruct (XL (Some l)) as (evs & X0). pose proof (ret_suits _ _ _ _ _ _ _ _ X0 JS JR) as SU.
  assert (r1 = RBool v) as -> by (destruct r1; cbn in ER1, SU; try congruence; destruct SU as (? & SU); discriminate).
  destruct (call_then_ret _ _ _ _ _ _ _ _ X0 JS JR) as (a & x0 & rest & ET). pose proof (proj2 (exec_good _ _ _ X0)) as A.
  destruct FR as (a' & n0' & rest' & EF & FR). destruct (split_unique _ A _ _ _ _ _ _ _ _ _ ET EF) as (<- & <- & _ & EQ).
  pose proof (Z.mod_pos_bound (sends a + 1) 256 ltac:(lia)) as MB.
  destruct (send_bytes_ok ((sends a + 1) mod 256) 0 ep cmd b MB ltac:(lia) HE EN) as (cbs & C1 & _ & C3 & C4).
  destruct FR as [(e & rr & ->)|(cmd1 & sep1 & dep1 & bs1 & rr & PL & SB & ->)].
  { exfalso. assert (J2 : In (k0, ORet u (RExc e)) (on_link (Some l) tr)) by (rewrite EF; apply in_or_app; right; right; left; reflexivity).
    destruct (proj2 (exec_owners _ _ _ X0) _ _ _ J2) as (c1 & T1). destruct (proj2 (exec_owners _ _ _ X0) _ _ _ JR) as (c2 & T2). rewrite T1 in T2. discriminate. }
  cbn in PL. injection PL as <- <- <-. rewrite C4 in SB. injection SB as <-. destruct x0 as [|y x]; [discriminate EQ|]. cbn in EQ. injection EQ as -> EQ.
  exists l, u, cbs, a, k0, x, k1, rest. split; [exact M|]. split; [exact C1|]. split; [exact C3|]. split; [exact ET|]. split.
  - assert (E3 : on_link (Some l) tr = (a ++ (k0, OCall u (CSend cmd 0 ep tmo)) :: (k0, OWire (Some u) (packet ((sends a + 1) mod 256) 0 ep cbs)) :: x) ++ (k1, ORet u (RBool v)) :: rest) by (rewrite <- app_assoc; exact ET).
    destruct v.
    { destruct (sent_acked _ _ _ _ _ _ _ X0 E3) as (a1 & n2 & c2 & a2 & m & bs & EA & _ & J & K). exists m, bs.
    assert (E4 : on_link (Some l) tr = a1 ++ (n2, OCall u c2) :: a2 ++ (k1, ORet u (RBool true)) :: rest) by (rewrite E3, EA, <- app_assoc; reflexivity).
    destruct (split_unique _ A _ _ _ _ _ _ _ _ _ ET E4) as (<- & _ & _ & E5). apply app_inv_head in EA. injection EA as _ _ <-. destruct J as [J|J]; [discriminate|]. auto. }
    destruct (failed_late _ _ _ _ _ _ _ X0 E3) as (a1 & n2 & c2 & a2 & EA & _ & FL).
    assert (E4 : on_link (Some l) tr = a1 ++ (n2, OCall u c2) :: a2 ++ (k1, ORet u (RBool false)) :: rest) by (rewrite E3, EA, <- app_assoc; reflexivity).
    destruct (split_unique _ A _ _ _ _ _ _ _ _ _ ET E4) as (<- & <- & <- & E5). apply app_inv_head in EA. injection EA as <-. cbn [send_timeout] in FL. destruct FL as [[NR L]|(m & d & y & z & EY & NR & L)].
    + left. split; [|exact L]. intros m d J. exact (NR m d (or_intror J)).
    + right. destruct y as [|y0 y]; [discriminate EY|]. cbn in EY. injection EY as _ EY. exists m, d, y, z. auto.
  - exact (one_wire _ _ _ _ _ _ _ (only_sends _ _ _ X0) A ET).
Qed.
Lemma send_returns es s tr t id ep cmd tmo n n' r : gexec ord gw0 es s tr -> In (n, GCalled t (send_call id ep cmd tmo)) tr -> In (n', GRet t r) tr ->
  (exists x, send_result r = Ok (VBool x)) \/ exists e, send_result r = Err e.
Proof.
  intros X C R. unfold send_call in C. destruct (called_call _ _ _ _ _ _ _ X C) as (p & E). destruct (returned_done _ _ _ _ _ _ _ X R) as (c & E'). rewrite E in E'. injection E' as <- ->.
  pose proof (send_story _ _ _ X _ _ _ E) as H. cbn [send_hist] in H. destruct H as [(e & ->)|(l & u & JS & JB)]; [right; eexists; reflexivity|].
  apply own_in in JS as (_ & k0 & JS). apply own_in in JB as (_ & k1 & JB). destruct (pairs _ _ _ _ X) as [P1 P2]. apply P1 in JS. destruct (P2 _ _ _ _ _ JB) as (r1 & -> & JR).
  destruct (exec_linked _ _ _ _ X) as [_ XL]. destruct (XL (Some l)) as (evs & X0). pose proof (ret_suits _ _ _ _ _ _ _ _ X0 JS JR) as SU.
  destruct r1; cbn in *; [left; eexists; reflexivity|destruct SU as (? & SU); discriminate|right; eexists; reflexivity].
Qed.
End Send.
