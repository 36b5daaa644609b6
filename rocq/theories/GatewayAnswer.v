(** What network management calls return (C80, C81). *)
From Coq Require Import String ZArith List Bool Lia.
From Verif Require Import Py BitStream Schema Registry Codec SpecBits BitLemmas WriterLemmas SpecWire CodecProofs Waiter Conn SpecConn ConnLemmas ConnPacket ConnAck ConnInv ConnCases ConnCalm ConnProps ConnWait ConnFirst ConnCut
  Gateway SpecGateway SpecGatewayNm GatewayProofs GatewayLinks GatewayStory GatewayNm GatewayIp.
From Verif Require ConnRest ConnReply.
From Verif Require DecodeProofs.
From Verif Require Import RemoveM.
Import ListNotations.
Open Scope list_scope.
Open Scope string_scope.
Open Scope list_scope.
Open Scope Z_scope.

(** ** how calls on a connection end *)
Definition suits (c : call) (p : pc) : Prop :=
  match p with
  | PAck _ _ _ _ ses => match c, ses with CSend _ _ _ _, None | CSendRecv _ _ _ _ _, Some _ => True | _, _ => False end
  | PWait h _ _ _ | PCancel h _ => wants c = Some h
  | PDone (RBool _) => match c with CSend _ _ _ _ => True | _ => False end
  | PDone (RMsg m) => exists h, wants c = Some h
  | PDone (RExc e) => match c with CSend cmd s d _ => e <> ETimeout \/ exists sq, 0 <= sq < 256 /\ send_bytes sq s d cmd = Err e | _ => True end
  end.
Definition shaped (s : conn) : Prop := forall t c p, nth_error (c_tasks s) t = Some (mkT c p) -> suits c p.
Lemma shaped_upd t x s tasks : (forall t c p, nth_error tasks t = Some (mkT c p) -> suits c p) -> suits (t_call x) (t_pc x) -> c_tasks s = upd t x tasks -> shaped s.
Proof.
  intros K P T t' c p E. rewrite T in E. rewrite nth_upd in E. destruct (Nat.eqb t t'); [|exact (K _ _ _ E)]. destruct (nth_error tasks t); [|discriminate]. injection E as ->. exact P.
Qed.
Lemma shaped_new s c p : shaped s -> suits c p -> forall t c' p', nth_error (c_tasks s ++ [mkT c p]) t = Some (mkT c' p') -> suits c' p'.
Proof. intros K P t c' p' E. rewrite nth_snoc in E. destruct (Nat.eqb t _); [injection E as <- <-; exact P|exact (K _ _ _ E)]. Qed.
Lemma step_shaped s tr e s' os : good s tr -> shaped s -> step s e = Some (s', os) -> shaped s'.
Proof.
  intros G K ST. assert (PL : forall c, suits c (PDone (RExc EUnmodelled))) by (intros []; cbn; auto; left; discriminate).
  destruct (good_case _ _ _ _ _ G ST); try exact K.
  1-4: eapply shaped_upd; [apply (shaped_new s c _ K (PL c)) || apply (shaped_new s _ _ K (PL (CWait h tmo)))|cbn [t_call t_pc]|reflexivity].
  { destruct c; cbn in *; try exact Logic.I. injection H as -> -> ->. right. exists (Z.land (c_seq s + 1) 255). split; [exact (ConnReply.num_range _ _ G)|exact H1]. }
  { destruct c; cbn; try exact Logic.I. left. discriminate. }
  { destruct c; cbn in *; try discriminate; [injection H0 as <- _; exact Logic.I|]. destruct (add_session h (c_w s)); injection H0 as <- _. exact Logic.I. }
  { reflexivity. }
  { destruct (packet_frame_of _ _ _ _ _ G H0 H1) as (_ & [_ _ _ _ T] & _). intros t c p E. rewrite T in E. exact (K _ _ _ E). }
  all: subst; try (eapply shaped_upd; [exact K| |reflexivity]; cbn [t_call t_pc]); try exact (K _ _ _ H).
  all: try (match goal with H : nth_error _ _ = Some (mkT ?c _) |- suits ?c _ => pose proof (K _ _ _ H) as KK; cbn in KK |- * end).
  all: try exact KK; try reflexivity; try (destruct c; try contradiction; try exact Logic.I; try (left; discriminate); eauto; fail).
Qed.
Lemma exec_shaped es s tr : exec conn0 es s tr -> shaped s.
Proof. induction 1 as [|es s tr e s' os X IH ST]; [intros [] c p E; discriminate|]. eapply step_shaped; [exact (proj1 (exec_good _ _ _ X))|exact IH|exact ST]. Qed.
(** the result of a call suits the call *)
Lemma ret_suits es s tr n u c n' r : exec conn0 es s tr -> In (n, OCall u c) tr -> In (n', ORet u r) tr -> suits c (PDone r).
Proof.
  intros X C R. destruct (called_task _ _ _ _ _ _ X C) as (p & E). destruct (proj2 (exec_owners _ _ _ X) _ _ _ R) as (c' & E'). rewrite E in E'. injection E' as <- ->. exact (exec_shaped _ _ _ X _ _ _ E).
Qed.

(** the trace is in the order of time *)
Lemma step_now s tr e s' os : good s tr -> step s e = Some (s', os) -> c_now s <= c_now s'.
Proof.
  intros G ST. destruct (good_case _ _ _ _ _ G ST); subst; cbn; try lia. destruct (packet_frame_of _ _ _ _ _ G H0 H1) as (_ & [T _ _ _ _] & _). lia.
Qed.
Lemma exec_ordered es s tr : exec conn0 es s tr -> (forall y, In y tr -> fst y <= c_now s) /\ forall a x b y, tr = a ++ x :: b -> In y b -> fst x <= fst y.
Proof.
  induction 1 as [|es s tr e s' os X [IH1 IH2] ST]; [split; [intros y []|intros [] ? ? ? E; discriminate]|]. pose proof (step_now _ _ _ _ _ (proj1 (exec_good _ _ _ X)) ST) as L.
  assert (ST1 : forall y, In y (stamp (c_now s) os) -> fst y = c_now s) by (intros y J; apply in_map_iff in J as (o & <- & _); reflexivity). split.
  - intros y J. apply in_app_or in J as [J|J]; [specialize (IH1 _ J); lia|rewrite (ST1 _ J); exact L].
  - intros a x b y E J. destruct (app_cut _ _ _ _ _ E) as [(c & E1 & ->)|(c & -> & E1)].
    + apply in_app_or in J as [J|J]; [exact (IH2 _ _ _ _ E1 J)|]. rewrite (ST1 _ J). apply IH1. rewrite E1. apply in_or_app. right. left. reflexivity.
    + rewrite (ST1 x), (ST1 y); [lia| |]; rewrite E1; apply in_or_app; right; [right; exact J|left; reflexivity].
Qed.
(** a send that is answered early was acknowledged *)
Lemma prompt_acked es s tr a n0 u v sep dep tmo b n1 x rest : exec conn0 es s tr -> tr = a ++ (n0, OCall u (CSend v sep dep tmo)) :: b ++ (n1, ORet u (RBool x)) :: rest -> n1 < n0 + tmo -> tmo <= 60000 ->
  x = true /\ exists m bs, In (m, ORecv bs) b /\ acknowledges bs ((sends a + 1) mod 256).
Proof.
  intros X E L1 L2. pose proof (proj2 (exec_good _ _ _ X)) as A. set (c := CSend v sep dep tmo) in *. assert (E2 : tr = (a ++ (n0, OCall u c) :: b) ++ (n1, ORet u (RBool x)) :: rest) by (rewrite <- app_assoc; exact E). destruct x.
  - split; [reflexivity|]. destruct (sent_acked _ _ _ _ _ _ _ X E2) as (a1 & n2 & c2 & a2 & m & bs & EA & _ & J & K). exists m, bs.
    destruct (split_unique _ A a n0 c (b ++ (n1, ORet u (RBool true)) :: rest) a1 n2 c2 (a2 ++ (n1, ORet u (RBool true)) :: rest) u) as (<- & <- & <- & EB); [exact E|rewrite E2, EA, <- app_assoc; reflexivity|].
    apply app_inv_tail in EB. subst b. auto.
  - exfalso. destruct (failed_late _ _ _ _ _ _ _ X E2) as (a1 & n2 & c2 & a2 & EA & _ & H).
    destruct (split_unique _ A a n0 c (b ++ (n1, ORet u (RBool false)) :: rest) a1 n2 c2 (a2 ++ (n1, ORet u (RBool false)) :: rest) u) as (<- & <- & <- & EB); [exact E|rewrite E2, EA, <- app_assoc; reflexivity|].
    destruct H as [[_ H]|(m & d & y & z & EY & _ & H)]; [cbn in H; lia|].
    assert (D : 60 <= d).
    { rewrite EA, EY in E2. rewrite <- !app_assoc in E2. cbn [List.app] in E2. rewrite <- !app_assoc in E2. cbn [List.app] in E2.
      destruct (rearm_announced _ _ _ (a ++ (n0, OCall u c) :: y) m u d (z ++ (n1, ORet u (RBool false)) :: rest) X) as (_ & _ & _ & _ & _ & _ & d' & _ & _ & _ & ->); [rewrite E2, <- app_assoc; reflexivity|].
      unfold patience. destruct (d' <? 0) eqn:Q; lia. }
    assert (n0 <= m). { refine (proj2 (exec_ordered _ _ _ X) a (n0, OCall u c) _ (m, ORearm u d) E _). rewrite EB, EY. apply in_or_app. left. apply in_or_app. right. left. reflexivity. }
    lia.
Qed.
(** a call that is alone with its message id returns the first such message since it was made *)
Lemma reply_trace es s tr c h a n u b n' r rest : exec conn0 es s tr -> tr = a ++ (n, OCall u c) :: b ++ (n', ORet u r) :: rest -> wants c = Some h -> sane c ->
  (forall n1 u1 c1, In (n1, OCall u1 c1) a -> wants c1 = Some h -> exists n2 r2, In (n2, ORet u1 r2) a) -> (forall n1 u1 c1, In (n1, OCall u1 c1) b -> wants c1 <> Some h) ->
  match r with RMsg m => first_of h b m | RExc ETimeout => none_before h (n + reply_timeout c) b | _ => True end.
Proof.
  intros X E W SA NA NB.
  destruct (exec_cut _ _ _ _ _ _ _ X E) as (es1 & s1 & a1 & e & s2 & o1 & o2 & es2 & tr3 & X1 & S1 & X2 & EA & EB & EN & _). cbn [fst snd] in *.
  destruct (exec_good _ _ _ X1) as [G1 _]. destruct (call_obs _ _ _ _ _ _ _ G1 S1 ltac:(apply in_or_app; right; left; reflexivity)) as (-> & -> & os' & EO).
  destruct o1 as [|o o1].
  2: { exfalso. injection EO as -> EO. pose proof (proj2 (exec_good _ _ _ X)) as A. specialize (A _ _ _ E). cbn in A. apply (A (c_now s1) c). rewrite EA. apply in_or_app. right. left. reflexivity. }
  cbn [stamp map List.app] in *. rewrite app_nil_r in EA. subst a1 n. clear EO os'.
  symmetry in EB. destruct (app_cut _ _ _ _ _ EB) as [(z & EZ & _)|(z & -> & ER)].
  - assert (J : In (ORet (length (c_tasks s1)) r) o2).
    { assert (J : In (n', ORet (length (c_tasks s1)) r) (stamp (c_now s1) o2)) by (rewrite EZ; apply in_or_app; right; left; reflexivity). apply in_map_iff in J as (o & E' & J). injection E' as _ ->. exact J. }
    pose proof (good_case _ _ _ _ _ G1 S1) as KC. inversion KC; subst; cbn in J.
    + exfalso. match goal with H : payload c = Some _ |- _ => destruct (SA _ _ _ H) as (R1 & R2 & bb & EN) end. destruct (send_bytes_ok _ sep dep cmd bb (ConnReply.num_range _ _ G1) R1 R2 EN) as (cbs & _ & _ & _ & SE). congruence.
    + apply in_app_or in J as [J|[J|[]]]; [apply in_conn_send in J; discriminate|]. injection J as <-. exact Logic.I.
    + apply in_conn_send in J. discriminate.
    + destruct J.
  - destruct (exec_cut _ _ _ _ _ _ _ X2 ER) as (es3 & s3 & b1 & e & s4 & o1 & o3 & es4 & tr4 & X3 & S3 & X4 & EA & _ & EN & _). cbn [fst snd] in *.
    pose proof (exec_app _ _ _ _ _ _ _ (X_snoc _ _ _ _ _ _ _ X1 S1) X3) as X13. destruct (exec_good _ _ _ X13) as [G3 _].
    assert (o1 = [] /\ o3 = []) as [-> ->].
    { destruct (ret_obs _ _ _ _ _ _ _ G3 S3 ltac:(apply in_or_app; right; left; reflexivity)) as [EO|[_ EO]].
      - destruct o1 as [|? [|]]; cbn in EO; try discriminate. injection EO as EO. auto.
      - exfalso. destruct (called_task _ _ _ (c_now s1) (length (c_tasks s1)) c X13) as (p & E'); [rewrite <- app_assoc; apply in_or_app; right; left; reflexivity|]. apply nth_lt in E'. lia. }
    cbn [stamp map List.app] in EA, S3. rewrite app_nil_r in EA. subst z n'.
    pose proof (X_snoc _ _ _ _ _ _ _ X3 S3) as X5.
    assert (NC : forall c', In (EvCall c') (es3 ++ [e]) -> wants c' <> Some h).
    { intros c' J. destruct (event_call _ _ _ _ _ X5 J) as (n1 & u1 & J1). apply in_app_or in J1 as [J1|[J1|[]]]; [|discriminate]. apply (NB n1 u1). apply in_or_app. right. exact J1. }
    pose proof (alone_reply _ _ _ c h _ _ _ _ _ (c_now s3) r X1 W (no_waits _ _ _ h X1 NA) SA S1 X5 NC) as O.
    specialize (O ltac:(apply in_or_app; right; apply in_or_app; right; left; reflexivity)). unfold alone_outcome in O. destruct r as [v|m|ex]; [exact Logic.I| |].
    + cbn [stamp map List.app] in O. apply first_of_cons in O; [|reflexivity]. rewrite app_assoc in O. apply first_of_snoc in O; [exact O|reflexivity].
    + destruct ex; try exact Logic.I. eapply none_before_sub; [|exact O]. intros x J. cbn [stamp map List.app]. right. rewrite app_assoc. apply in_or_app. left. exact J.
Qed.
(** a message that cannot be sent *)
Lemma unsent_ret es s tr n u c cmd sep dep e n' r : exec conn0 es s tr -> In (n, OCall u c) tr -> payload c = Some (cmd, sep, dep) -> (forall sq, 0 <= sq < 256 -> send_bytes sq sep dep cmd = Err e) ->
  In (n', ORet u r) tr -> r = RExc e.
Proof.
  intros X C P S R. pose proof C as C0. apply in_split in C0 as (a & b & E). destruct (exec_cut _ _ _ _ _ _ _ X E) as (es1 & s1 & a1 & ev & s2 & o1 & o2 & es2 & tr3 & X1 & S1 & X2 & EA & EB & EN & _). cbn [fst snd] in *.
  destruct (exec_good _ _ _ X1) as [G1 _]. destruct (call_obs _ _ _ _ _ _ _ G1 S1 ltac:(apply in_or_app; right; left; reflexivity)) as (-> & -> & os' & EO).
  assert (J : In (ORet (length (c_tasks s1)) (RExc e)) (o1 ++ OCall (length (c_tasks s1)) c :: o2)).
  { pose proof (good_case _ _ _ _ _ G1 S1) as KC. remember (o1 ++ OCall (length (c_tasks s1)) c :: o2) as os eqn:EQ. clear EQ EO. inversion KC; subst; try discriminate.
    all: match goal with H : payload _ = Some (?x, ?y, ?z), H' : send_bytes ?q ?y ?z ?x = _ |- _ => rewrite P in H; injection H as <- <- <-; rewrite (S _ (ConnReply.num_range _ _ G1)) in H' end; try discriminate.
    match goal with H : Err _ = Err _ |- _ => injection H as <- end. right. left. reflexivity. }
  assert (J' : In (c_now s1, ORet (length (c_tasks s1)) (RExc e)) tr).
  { rewrite E, EA, EB, EN. rewrite <- app_assoc. apply in_or_app. right. apply in_app_or in J as [J|[J|J]]; [apply in_or_app; left; apply in_map; exact J|discriminate|]. apply in_or_app. right. right. apply in_or_app. left. apply in_map. exact J. }
  destruct (proj2 (exec_owners _ _ _ X) _ _ _ J') as (c1 & E1). destruct (proj2 (exec_owners _ _ _ X) _ _ _ R) as (c2 & E2). congruence.
Qed.

(** ** the messages *)
Lemma first_range s d rest k : In s registry -> s_attrs s = mkA "seqNo" (TInt false 1) None None :: rest -> aget "seqNo" d = Some (VI false 1 k) -> ~ byte k ->
  compose (VObj (CMsg s) d) = Err EOverflow.
Proof.
  intros Hs EA G K. destruct (Z_lt_le_dec k 256) as [L|L]; [|exact (first_overflow _ _ _ _ Hs EA G L)].
  destruct (EncodeProofs.registry_cls_bytes s Hs) as [C1 C2]. cbn [compose]. unfold compose_with.
  destruct (addBytes_ok false 1 (s_cls s) new_writer [] winv_new eq_refl C1) as (w1 & E1 & W1 & S1).
  change (Z.of_nat 1) with 1 in E1. rewrite E1. cbn [bind].
  destruct (addBytes_ok false 1 (s_cmd s) w1 _ W1 S1 C2) as (w2 & E2 & W2 & S2).
  change (Z.of_nat 1) with 1 in E2. rewrite E2. cbn [bind]. rewrite EA. cbn [compose_attrs]. unfold compose_attr at 1. cbn [a_name a_compose a_ty]. rewrite G. cbn [has_serialize].
  rewrite (EncodeProofs.dget_sers _ _ _ G). cbn [serialize serialize_simple]. unfold addBytes. rewrite to_bytes_overflow; [reflexivity|]. unfold fits, byte in *. change (2 ^ (8 * Z.of_nat 1)) with 256. lia.
Qed.
Lemma nm_built q k : nm_valid q -> exists m, nm_msg q k = Ok m.
Proof.
  intros V. destruct q; cbn [nm_msg nm_valid] in *; try (eexists; reflexivity). destruct V as (_ & bs & -> & LB & FB).
  unfold new_msg. cbn. rewrite (proj2 (Z.eqb_eq (zlen bs) 16)) by (unfold zlen; lia). cbn. eexists. reflexivity.
Qed.
Lemma nm_composes q k m : nm_valid q -> byte k -> nm_msg q k = Ok m -> compose m = Ok (nm_bytes q k).
Proof.
  intros V K E. destruct (nm_encodes (fun l => l) q k V K) as (s & d & E' & EN & B). rewrite E in E'. injection E' as ->. destruct (proj1 EncodeProofs.compose_all _ _ EN) as (_ & bs & C & B' & EB). rewrite C. f_equal. exact (bits_of_inj _ _ B' B EB).
Qed.
(** sending a well formed request fails with an overflow at most *)
Lemma nm_send_errs q k m sq e : nm_valid q -> nm_msg q k = Ok m -> 0 <= sq < 256 -> send_bytes sq 0 0 m = Err e -> e = EOverflow.
Proof.
  intros V E Q SE. destruct (nm_first _ _ _ E) as (sc & d & rest & -> & HR & EA & G & _). assert (byte k \/ ~ byte k) as [K|K] by (unfold byte; lia).
  - exfalso. destruct (nm_encodes (fun l => l) q k V K) as (s & d' & E' & EN & B). rewrite E in E'. injection E' as <- <-. destruct (send_bytes_ok sq 0 0 _ _ Q ltac:(lia) ltac:(lia) EN) as (cbs & _ & _ & _ & E''). congruence.
  - pose proof (send_fails sq _ _ _ Q (first_range _ _ _ _ HR EA G K)). congruence.
Qed.

Section Answer.
Variable ord : list Z -> list Z.
Definition nm_hist (t : nat) (c : gcall) (p : gpc) (h : list gobs) : Prop :=
  match c with
  | GNm q =>
      match p with
      | GWait w fs => exists u k m, w = AwCall None u /\ fs = [FNm q] /\ nm_msg q k = Ok m /\
          h = [GCalled t c; GSub t None u (match nm_wait q with Some (s, tmo) => CSendRecv m 0 0 (s_hid s) tmo | None => CSend m 0 0 3000 end)]
      | GDone r =>
          (exists e, ~ nm_valid q /\ r = Err e /\ h = [GCalled t c; GRet t r]) \/
          (exists u k m e, nm_msg q k = Ok m /\ r = Err e /\
             h = [GCalled t c; GSub t None u (match nm_wait q with Some (s, tmo) => CSendRecv m 0 0 (s_hid s) tmo | None => CSend m 0 0 3000 end); GRet t r]) \/
          (exists u k m r0, nm_msg q k = Ok m /\
             r = match of_result r0 with Ok (GV v) => match nm_result q v with Ok x => Ok (GV x) | Err e => Err e end | Ok w => Ok w | Err e => if exn_eqb e ETimeout then Ok (GV (nm_default q)) else Err e end /\
             h = [GCalled t c; GSub t None u (match nm_wait q with Some (s, tmo) => CSendRecv m 0 0 (s_hid s) tmo | None => CSend m 0 0 3000 end); GBack t (AwCall None u) (of_result r0); GRet t r])
      end
  | _ => True
  end.
Lemma nm_story es s tr : gexec ord gw0 es s tr -> forall t c p, nth_error (g_tasks s) t = Some (mkGT c p) -> nm_hist t c p (own t tr).
Proof.
  intros X. refine (proj1 (story ord nm_hist _ _ es s tr X)); clear.
  - intros t c d d' os a S. destruct c; try exact I. cbn [start] in S. unfold start_nm in S. cbv zeta in S. destruct (nm_msg q (d_nm d + 1)) as [m|e] eqn:M.
    + match type of S with context [sub t None ?c ?x] => destruct (sub t None c x) as [[d1 o1] a1] eqn:E end. destruct (sub_mine _ _ _ _ _ _ _ E) as [(_ & _ & i & H)|(u & F & [->|(e & -> & _)])]; [discriminate| |]; injection S as <- <- <-; rewrite F; cbn [pc_of said List.app].
      * exists u, (d_nm d + 1), m. auto.
      * right. left. exists u, (d_nm d + 1), m, e. auto.
    + unfold ret in S. injection S as <- <- <-. cbn. left. exists e. split; [|auto]. intros V. destruct (nm_built q (d_nm d + 1) V). congruence.
  - intros t c w fs r d d' os a h pre H B U. destruct c; try exact I. cbn [nm_hist] in H. destruct H as (u & k & m & -> & -> & M & ->). cbn [back] in B. destruct B as (r0 & -> & _). cbn [unwind] in U.
    assert (V : forall v, of_result r0 = Ok v -> exists x, v = GV x) by (intros v; destruct r0; cbn; intros [= <-]; eauto).
    assert (U' : exists r, (d, [], ARet r) = (d', os, a) /\ r = match of_result r0 with Ok (GV v) => match nm_result q v with Ok x => Ok (GV x) | Err e => Err e end | Ok w => Ok w | Err e => if exn_eqb e ETimeout then Ok (GV (nm_default q)) else Err e end).
    { destruct (of_result r0) as [v|e]; [destruct (V _ eq_refl) as (x & ->)|]; cbn [frame_step] in U.
      - eexists. split; [exact U|reflexivity].
      - eexists. split; [|reflexivity]. destruct e; exact U. }
    destruct U' as (r & U' & ER). injection U' as <- <- <-. cbn [pc_of said filter List.app nm_hist]. right. right. exists u, k, m, r0. auto.
Qed.
Lemma asks_ok q k m : nm_msg q k = Ok m -> nm_asks q (match nm_wait q with Some (s, tmo) => CSendRecv m 0 0 (s_hid s) tmo | None => CSend m 0 0 3000 end).
Proof. intros E. exists m, k. split; [intros V K; exact (nm_composes _ _ _ V K E)|destruct q; reflexivity]. Qed.
Lemma wait_report q : nm_report q = match nm_wait q with Some (s, tmo) => Some (s_hid s, tmo) | None => None end.
Proof. destruct q; reflexivity. Qed.
Lemma getattr_aget c d n x : aget n d = Some x -> getattr (VObj c d) n = x.
Proof. intros E. cbn [getattr]. rewrite E. reflexivity. Qed.
Lemma getattr_attribute m x : x = "status" \/ x = "failedNodeList" -> getattr m x = attribute m x.
Proof.
  intros X. destruct m; try reflexivity. destruct c; [apply DecodeProofs.getattr_spec|..]; cbn [getattr attribute]; destruct (aget x attrs); try reflexivity; destruct X as [->| ->]; reflexivity.
Qed.
Lemma value_result q m x : nm_value q m = Some x -> nm_result q m = Ok x.
Proof.
  destruct q; cbn [nm_value nm_result]; try discriminate; try congruence.
  - intros E. rewrite getattr_attribute by auto. congruence.
  - destruct m; try discriminate. intros E.
    destruct (aget "individualEndPoints" _) as [v1|] eqn:E1; [|discriminate]. destruct v1; try discriminate. destruct (aget "aggregatedEndPoints" _) as [v2|] eqn:E2; [|discriminate]. destruct v2; try discriminate.
    rewrite (getattr_aget _ _ _ _ E1), (getattr_aget _ _ _ _ E2). congruence.
  - intros E. rewrite getattr_attribute by auto. congruence.
Qed.
Lemma fallback_default q : nm_fallback q = nm_default q. Proof. destruct q; reflexivity. Qed.
Lemma nm_answer es s tr t q n n' r : gexec ord gw0 es s tr -> In (n, GCalled t (GNm q)) tr -> In (n', GRet t r) tr ->
  exists h, own t tr = GCalled t (GNm q) :: h ++ [GRet t r] /\ nm_run t q h r.
Proof.
  intros X C R. destruct (called_call _ _ _ _ _ _ _ X C) as (p & E). destruct (returned_done _ _ _ _ _ _ _ X R) as (c & E'). rewrite E in E'. injection E' as <- ->.
  pose proof (nm_story _ _ _ X _ _ _ E) as H. cbn [nm_hist] in H. destruct H as [(e & NV & -> & ->)|[(u & k & m & e & M & -> & ->)|(u & k & m & r0 & M & ER & EO)]].
  - exists []. split; [reflexivity|]. apply NR_bad. exact NV.
  - eexists [_]. split; [reflexivity|]. apply NR_raise. exact (asks_ok _ _ _ M).
  - rewrite EO. eexists [_; _]. split; [reflexivity|]. pose proof (asks_ok _ _ _ M) as AK. set (c := match nm_wait q with Some (s, tmo) => CSendRecv m 0 0 (s_hid s) tmo | None => CSend m 0 0 3000 end) in *.
    destruct (pairs _ _ _ _ X) as [P1 P2]. assert (JS : In (GSub t None u c) (own t tr)) by (rewrite EO; right; left; reflexivity). assert (JB : In (GBack t (AwCall None u) (of_result r0)) (own t tr)) by (rewrite EO; right; right; left; reflexivity).
    apply own_in in JS as (_ & k0 & JS). apply own_in in JB as (_ & k1 & JB). apply P1 in JS. destruct (P2 _ _ _ _ _ JB) as (r1 & ER1 & JR).
    rewrite ER1 in ER |- *. clear r0 ER1 EO JB. rename r1 into r0. destruct (exec_linked _ _ _ _ X) as [_ XL]. destruct (XL None) as (evs & X0).
    pose proof (ret_suits _ _ _ _ _ _ _ _ X0 JS JR) as SU. clear R E P1 P2. rewrite ER. destruct r0 as [b|v|e]; cbn [of_result] in *.
    + assert (W : nm_report q = None) by (rewrite wait_report; unfold c in SU; destruct (nm_wait q) as [[]|]; [contradiction SU|reflexivity]).
      assert (RV : nm_result q (VBool b) = Ok (VBool true)) by (destruct q; try discriminate W; reflexivity). rewrite RV. apply NR_sent; assumption.
    + destruct (call_then_ret _ _ _ _ _ _ _ _ X0 JS JR) as (a & b & rest & ET). rewrite app_comm_cons, app_assoc in ET. destruct (ConnRest.reply_fresh _ _ _ X0 _ _ _ ET) as (a1 & n0 & c' & a2 & n1 & bs & EA & WA & _).
      assert (c' = c) as -> .
      { assert (J : In (n0, OCall u c') (on_link None tr)) by (rewrite ET, EA; apply in_or_app; left; apply in_or_app; right; left; reflexivity).
        destruct (called_task _ _ _ _ _ _ X0 J) as (p1 & T1). destruct (called_task _ _ _ _ _ _ X0 JS) as (p2 & T2). congruence. }
      apply NR_report; [exact AK| |].
      * rewrite wait_report. unfold c in WA |- *. destruct (nm_wait q) as [[sc tmo]|]; [|discriminate WA]. cbn in WA |- *. congruence.
      * intros x VX. rewrite (value_result _ _ _ VX). reflexivity.
    + destruct (exn_eqb e ETimeout) eqn:EE.
      * destruct e; try discriminate EE. rewrite <- fallback_default.
        apply NR_late; [exact AK|]. intros W V. rewrite wait_report in W. unfold c in SU. destruct (nm_wait q) as [[]|]; [discriminate|]. destruct SU as [SU|(sq & Q & SE)]; [exact (SU eq_refl)|].
        discriminate (nm_send_errs _ _ _ _ _ V M Q SE).
      * apply NR_fail; [exact AK|]. intros ->. discriminate.
Qed.
(** commands *)
Lemma command_result es s tr t q n n' r : gexec ord gw0 es s tr -> In (n, GCalled t (GNm q)) tr -> In (n', GRet t r) tr -> nm_valid q -> nm_report q = None ->
  r = Ok (GV (VBool true)) \/ exists e, r = Err e.
Proof.
  intros X C R V N. destruct (nm_answer _ _ _ _ _ _ _ _ X C R) as (h & _ & RU). inversion RU; subst; try congruence; try (right; eexists; reflexivity); [left; reflexivity|].
  exfalso. match goal with H : _ -> ~ _ |- _ => exact (H N V) end.
Qed.
Lemma command_prompt es s tr t q n n' r : gexec ord gw0 es s tr -> In (n, GCalled t (GNm q)) tr -> In (n', GRet t (Ok r)) tr -> nm_valid q -> nm_report q = None ->
  exists u c a n0 b n1 x rest, own t tr = [GCalled t (GNm q); GSub t None u c; GBack t (AwCall None u) (Ok (GV (VBool x))); GRet t (Ok (GV (VBool true)))] /\ nm_asks q c /\
    on_link None tr = a ++ (n0, OCall u c) :: b ++ (n1, ORet u (RBool x)) :: rest /\
    (n1 < n0 + 3000 -> x = true) /\ (x = true -> exists m bs, In (m, ORecv bs) b /\ acknowledges bs ((sends a + 1) mod 256)).
Proof.
  intros X C R V N. destruct (nm_answer _ _ _ _ _ _ _ _ X C R) as (h & EO & RU). inversion RU; subst; try congruence; [|exfalso; match goal with H : _ -> ~ _ |- _ => exact (H N V) end].
  match goal with H : nm_asks q ?c0 |- _ => rename H into AK; rename c0 into c end. cbn [List.app] in EO.
  assert (JS : In (GSub t None u c) (own t tr)) by (rewrite EO; right; left; reflexivity). assert (JB : In (GBack t (AwCall None u) (Ok (GV (VBool b)))) (own t tr)) by (rewrite EO; right; right; left; reflexivity).
  apply own_in in JS as (_ & k0 & JS). apply own_in in JB as (_ & k1 & JB). destruct (pairs _ _ _ _ X) as [P1 P2]. apply P1 in JS. destruct (P2 _ _ _ _ _ JB) as (r1 & ER1 & JR).
  destruct (exec_linked _ _ _ _ X) as [_ XL]. destruct (XL None) as (evs & X0). pose proof (ret_suits _ _ _ _ _ _ _ _ X0 JS JR) as SU.
  destruct AK as (v & k & AK & EC). rewrite N in EC. assert (r1 = RBool b) as -> by (destruct r1; cbn in ER1; try congruence; subst c; cbn in SU; destruct SU as (? & SU); discriminate).
  destruct (call_then_ret _ _ _ _ _ _ _ _ X0 JS JR) as (a & b0 & rest & ET).
  exists u, c, a, k0, b0, k1, b, rest. split; [exact EO|]. split; [exists v, k; rewrite N; auto|]. split; [exact ET|]. split.
  - intros L. subst c. exact (proj1 (prompt_acked _ _ _ _ _ _ _ _ _ _ _ _ _ _ X0 ET L ltac:(lia))).
  - intros ->. pose proof (proj2 (exec_good _ _ _ X0)) as A. assert (E2 : on_link None tr = (a ++ (k0, OCall u c) :: b0) ++ (k1, ORet u (RBool true)) :: rest) by (rewrite <- app_assoc; exact ET).
    destruct (sent_acked _ _ _ _ _ _ _ X0 E2) as (a1 & n2 & c2 & a2 & m & bs & EA & _ & J & K). exists m, bs.
    destruct (split_unique _ A a k0 c (b0 ++ (k1, ORet u (RBool true)) :: rest) a1 n2 c2 (a2 ++ (k1, ORet u (RBool true)) :: rest) u) as (<- & _ & _ & EB); [exact ET|rewrite E2, EA, <- app_assoc; reflexivity|].
    apply app_inv_tail in EB. subst b0. auto.
Qed.
(** queries *)
Lemma query_result es s tr t q n n' x h tmo : gexec ord gw0 es s tr -> In (n, GCalled t (GNm q)) tr -> In (n', GRet t (Ok x)) tr -> nm_valid q -> nm_report q = Some (h, tmo) ->
  exists u c a n0 b n1 rr rest, own t tr = [GCalled t (GNm q); GSub t None u c; GBack t (AwCall None u) rr; GRet t (Ok x)] /\ nm_asks q c /\
    ((exists m, rr = Ok (GV m) /\ on_link None tr = a ++ (n0, OCall u c) :: b ++ (n1, ORet u (RMsg m)) :: rest /\ hid m = h /\ (forall y, nm_value q m = Some y -> x = GV y) /\
        (exists n2 bs, In (n2, ORecv bs) b /\ brings bs m) /\ (sole h a b -> first_of h b m)) \/
     (rr = Err ETimeout /\ on_link None tr = a ++ (n0, OCall u c) :: b ++ (n1, ORet u (RExc ETimeout)) :: rest /\ x = GV (nm_fallback q) /\
        (sole h a b -> none_before h (n0 + tmo) b))).
Proof.
  intros X C R V N. destruct (called_call _ _ _ _ _ _ _ X C) as (p & E). destruct (returned_done _ _ _ _ _ _ _ X R) as (c & E'). rewrite E in E'. injection E' as <- ->.
  pose proof (nm_story _ _ _ X _ _ _ E) as H. cbn [nm_hist] in H. destruct H as [(e & NV & H & _)|[(u & k & m & e & M & H & _)|(u & k & m & r0 & M & ER & EO)]]; [discriminate|discriminate|].
  pose proof (asks_ok _ _ _ M) as AK. set (c := match nm_wait q with Some (s, tmo) => CSendRecv m 0 0 (s_hid s) tmo | None => CSend m 0 0 3000 end) in *.
  assert (EC : c = CSendRecv m 0 0 h tmo) by (rewrite wait_report in N; unfold c; destruct (nm_wait q) as [[sc tm]|]; [injection N as -> ->; reflexivity|discriminate]).
  assert (JS : In (GSub t None u c) (own t tr)) by (rewrite EO; right; left; reflexivity). assert (JB : In (GBack t (AwCall None u) (of_result r0)) (own t tr)) by (rewrite EO; right; right; left; reflexivity).
  apply own_in in JS as (_ & k0 & JS). apply own_in in JB as (_ & k1 & JB). destruct (pairs _ _ _ _ X) as [P1 P2]. apply P1 in JS. destruct (P2 _ _ _ _ _ JB) as (r1 & ER1 & JR).
  rewrite ER1 in ER, EO. clear r0 ER1 JB. rename r1 into r0. destruct (exec_linked _ _ _ _ X) as [_ XL]. destruct (XL None) as (evs & X0). pose proof (ret_suits _ _ _ _ _ _ _ _ X0 JS JR) as SU.
  destruct (call_then_ret _ _ _ _ _ _ _ _ X0 JS JR) as (a & b & rest & ET). clear P1 P2 R E.
  destruct (nm_first _ _ _ M) as (sc & d & rst & Em & HR & EA & G & _). 
  assert (KB : byte k \/ r0 = RExc EOverflow).
  { assert (byte k \/ ~ byte k) as [K|K] by (unfold byte; lia); [auto|right]. subst m. refine (unsent_ret _ _ _ _ _ c (VObj (CMsg sc) d) 0 0 EOverflow _ _ X0 JS _ _ JR); [rewrite EC; reflexivity|].
    intros sq Q. exact (send_fails sq _ _ _ Q (first_range _ _ _ _ HR EA G K)). }
  assert (RT : byte k -> sole h a b -> match r0 with RMsg m => first_of h b m | RExc ETimeout => none_before h (k0 + tmo) b | _ => True end).
  { intros K [O1 O2]. rewrite EC in ET. refine (reply_trace _ _ _ _ h _ _ _ _ _ r0 _ X0 ET eq_refl _ O1 O2). intros cmd sep dep P. injection P as <- <- <-. split; [lia|]. split; [lia|].
    destruct (nm_encodes ord q k V K) as (s1 & d1 & E1 & EN & _). rewrite M in E1. injection E1 as ->. eauto. }
  exists u, c, a, k0, b, k1, (of_result r0), rest. split; [exact EO|]. split; [exact AK|]. destruct r0 as [bo|v|e]; cbn [of_result] in *.
  - rewrite EC in SU. contradiction SU.
  - left. exists v. split; [reflexivity|]. split; [exact ET|]. destruct KB as [KB|KB]; [|discriminate].
    rewrite app_comm_cons, app_assoc in ET. destruct (ConnRest.reply_fresh _ _ _ X0 _ _ _ ET) as (a1 & n0 & c' & a2 & n1 & bs & EA1 & WA & JR1 & BR).
    rewrite <- app_assoc in ET. cbn [List.app] in ET. pose proof (proj2 (exec_good _ _ _ X0)) as A.
    destruct (split_unique _ A a k0 c (b ++ (k1, ORet u (RMsg v)) :: rest) a1 n0 c' (a2 ++ (k1, ORet u (RMsg v)) :: rest) u) as (<- & <- & <- & EB); [exact ET|rewrite ET; rewrite app_comm_cons, app_assoc, EA1, <- app_assoc; reflexivity|].
    apply app_inv_tail in EB. subst a2. split; [rewrite EC in WA; cbn in WA; congruence|]. split.
    + intros y VY. rewrite (value_result _ _ _ VY) in ER. congruence.
    + split; [eauto|exact (RT KB)].
  - destruct KB as [KB|KB]; [|injection KB as ->; discriminate ER]. destruct (exn_eqb e ETimeout) eqn:EE; [|discriminate ER]. destruct e; try discriminate EE. right.
    split; [reflexivity|]. split; [exact ET|]. split; [rewrite fallback_default; congruence|exact (RT KB)].
Qed.
(** ** Node.remove *)
Lemma eq_one v : exists d, py_eq v (VInt 1) = Ok d /\ (d = true <-> is_number v 1).
Proof.
  assert (N : forall d : bool, d = false -> (d = true <-> False)) by (intros; subst; split; [discriminate|tauto]).
  destruct v; cbn [py_eq is_message is_int to_int is_number bind]; try (eexists; split; [reflexivity|apply N; reflexivity]);
    try (eexists; split; [reflexivity|rewrite Z.eqb_eq; split; congruence]).
  all: try (destruct b; (eexists; split; [reflexivity|split; cbn; [reflexivity || discriminate|discriminate || reflexivity]])).
  all: try (eexists; split; [reflexivity|unfold dec_eqb; rewrite Z.eqb_eq; change (10 ^ 0) with 1; lia]).
  all: exists false; split; [|apply N; reflexivity]. change (is_message (VInt 1)) with false. destruct (is_message _); reflexivity.
Qed.
Lemma remove_answer es s tr t id ep n n' r d : gexec ord gw0 es s tr -> In (n, GCalled t (remove_call id ep)) tr -> In (n', GRet t r) tr -> byte id -> remove_result r = Ok d ->
  exists u c a n0 b n1 rest, nm_asks (NmRemoveFailed id) c /\
    ((exists m, on_link None tr = a ++ (n0, OCall u c) :: b ++ (n1, ORet u (RMsg m)) :: rest /\ hid m = 52 * 256 + 8 /\ (d = true <-> is_number (attribute m "status") 1) /\
        (exists n2 bs, In (n2, ORecv bs) b /\ brings bs m) /\ (sole (52 * 256 + 8) a b -> first_of (52 * 256 + 8) b m)) \/
     (on_link None tr = a ++ (n0, OCall u c) :: b ++ (n1, ORet u (RExc ETimeout)) :: rest /\ d = false /\
        (sole (52 * 256 + 8) a b -> none_before (52 * 256 + 8) (n0 + 10000) b))).
Proof.
  intros X C R B E. destruct r as [x|e]; [|discriminate E]. 
  destruct (query_result _ _ _ _ _ _ _ _ (52 * 256 + 8) 10000 X C R B eq_refl) as (u & c & a & n0 & b & n1 & rr & rest & _ & AK & [(m & _ & ET & HM & V & BR & F)|(_ & ET & EX & F)]);
    exists u, c, a, n0, b, n1, rest; (split; [exact AK|]).
  - left. exists m. split; [exact ET|]. split; [exact HM|]. split; [|split; [exact BR|exact F]]. rewrite (V _ eq_refl) in E. cbn [remove_result] in E.
    destruct (eq_one (attribute m "status")) as (d' & E1 & E2). rewrite E1 in E. injection E as <-. exact E2.
  - right. split; [exact ET|]. split; [|exact F]. rewrite EX in E. cbn in E. congruence.
Qed.
End Answer.
