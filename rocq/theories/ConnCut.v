(** Executions of a connection cut at an observation; the outcome of a lone wait in terms of the trace. *)
From Coq Require Import String ZArith List Bool Lia ZifyBool ZifyNat.
From Verif Require Import Py Schema Registry Codec Waiter Conn SpecConn ConnLemmas ConnAck ConnInv ConnCases ConnProps ConnCalm ConnWait ConnReply ConnFirst.
Import ListNotations.
Open Scope list_scope.
Open Scope string_scope.
Open Scope list_scope.
Open Scope Z_scope.

Lemma app_cut {A} (l1 l2 a : list A) x b : l1 ++ l2 = a ++ x :: b -> (exists c, l1 = a ++ x :: c /\ b = c ++ l2) \/ (exists c, a = l1 ++ c /\ l2 = c ++ x :: b).
Proof.
  revert a. induction l1 as [|y l1 IH]; intros a E; [right; exists a; auto|]. destruct a as [|z a]; cbn in E.
  - injection E as -> <-. left. exists l1. auto.
  - injection E as -> E. destruct (IH _ E) as [(c & -> & ->)|(c & -> & ->)]; [left; exists c; auto|right; exists c; auto].
Qed.
Lemma stamp_cut n os a x b : stamp n os = a ++ x :: b -> exists os1 os2, os = os1 ++ snd x :: os2 /\ a = stamp n os1 /\ b = stamp n os2 /\ fst x = n.
Proof.
  revert a. induction os as [|o os IH]; intros a E; [destruct a; discriminate|]. destruct a as [|y a]; cbn in E.
  - injection E as <- <-. exists [], os. auto.
  - injection E as <- E. destruct (IH _ E) as (o1 & o2 & -> & -> & -> & F). exists (o :: o1), o2. auto.
Qed.
Lemma exec_cut s0 es s tr a x b : exec s0 es s tr -> tr = a ++ x :: b -> exists es1 s1 a1 e s2 os1 os2 es2 tr3,
  exec s0 es1 s1 a1 /\ step s1 e = Some (s2, os1 ++ snd x :: os2) /\ exec s2 es2 s tr3 /\ a = a1 ++ stamp (c_now s1) os1 /\ b = stamp (c_now s1) os2 ++ tr3 /\ fst x = c_now s1 /\ es = es1 ++ e :: es2.
Proof.
  intros X. revert a b. induction X as [|es s tr e s' os X IH ST]; intros a b E; [destruct a; discriminate|].
  destruct (app_cut _ _ _ _ _ E) as [(c & E1 & ->)|(c & -> & E1)].
  - destruct (IH _ _ E1) as (es1 & s1 & a1 & e1 & s2 & o1 & o2 & es2 & tr3 & X1 & S1 & X2 & -> & -> & F & ->).
    exists es1, s1, a1, e1, s2, o1, o2, (es2 ++ [e]), (tr3 ++ stamp (c_now s) os). split; [exact X1|]. split; [exact S1|]. split; [econstructor; eassumption|].
    split; [reflexivity|]. split; [rewrite app_assoc; reflexivity|]. split; [exact F|]. rewrite <- app_assoc. reflexivity.
  - destruct (stamp_cut _ _ _ _ _ E1) as (o1 & o2 & -> & -> & -> & F). exists es, s, tr, e, s', o1, o2, [], []. split; [exact X|]. split; [exact ST|]. split; [constructor|].
    split; [reflexivity|]. split; [rewrite app_nil_r; reflexivity|]. auto.
Qed.
Lemma packet_quiet s tr bs s' os o : good s tr -> step s (EvPacket bs) = Some (s', os) -> In o os -> match o with OCall _ _ | ORet _ _ => False | _ => True end.
Proof.
  intros G ST J. pose proof (good_case _ _ _ _ _ G ST) as KC. inversion KC; subst. destruct J as [<-|J]; [exact Logic.I|].
  destruct (packet_frame_of _ _ _ _ _ G H1 H2) as (_ & _ & PO). rewrite Forall_forall in PO. specialize (PO _ J). destruct o; try exact Logic.I; exact PO.
Qed.
Lemma in_conn_send o t bs k : In o (conn_send t bs k) -> o = OWire t bs.
Proof. unfold conn_send. destruct (c_up k); [intros [<-|[]]; reflexivity|intros []]. Qed.
Lemma call_obs s tr e s' os u c : good s tr -> step s e = Some (s', os) -> In (OCall u c) os -> e = EvCall c /\ u = length (c_tasks s) /\ exists os', os = OCall u c :: os'.
Proof.
  intros G ST J. destruct (good_case _ _ _ _ _ G ST); subst; cbn in J; try contradiction.
  all: try (destruct J as [J|J]; [injection J as <- <-; split; [reflexivity|split; [reflexivity|eexists; reflexivity]]|]).
  all: try contradiction. all: try (destruct J as [J|[]]; discriminate). all: try (apply in_conn_send in J; discriminate).
  - apply in_app_or in J as [J|[J|[]]]; [apply in_conn_send in J|]; discriminate.
  - elim (packet_quiet _ _ _ _ _ _ G ST J).
Qed.
Lemma ret_obs s tr e s' os u r : good s tr -> step s e = Some (s', os) -> In (ORet u r) os -> os = [ORet u r] \/ (exists c, e = EvCall c) /\ u = length (c_tasks s).
Proof.
  intros G ST J. destruct (good_case _ _ _ _ _ G ST); subst; cbn in J; try contradiction.
  all: try (destruct J as [J|[]]; try discriminate; injection J as -> ->; left; reflexivity). all: try (apply in_conn_send in J; discriminate).
  - destruct J as [J|[J|[]]]; [discriminate|]. injection J as <- <-. right. eauto.
  - destruct J as [J|J]; [discriminate|]. apply in_app_or in J as [J|[J|[]]]; [apply in_conn_send in J; discriminate|]. injection J as <- <-. right. eauto.
  - destruct J as [J|J]; [discriminate|]. apply in_conn_send in J. discriminate.
  - elim (packet_quiet _ _ _ _ _ _ G ST J).
Qed.
Lemma called_task es s tr n u c : exec conn0 es s tr -> In (n, OCall u c) tr -> exists p, nth_error (c_tasks s) u = Some (mkT c p).
Proof.
  intros X. revert n u c. induction X as [|es s tr e s' os X IH ST]; intros n u c J; [destruct J|]. destruct (exec_good _ _ _ X) as [G _]. apply in_app_or in J as [J|J].
  - destruct (IH _ _ _ J) as (p & E). exact (step_task _ _ _ _ _ _ _ _ G ST E).
  - apply in_map_iff in J as (o & E & J). injection E as _ ->. destruct (call_obs _ _ _ _ _ _ _ G ST J) as (-> & -> & _).
    pose proof (good_case _ _ _ _ _ G ST) as KC. inversion KC; subst; cbn; rewrite nth_upd, Nat.eqb_refl, nth_snoc, Nat.eqb_refl; eauto.
Qed.
Lemma no_waits es s tr h : exec conn0 es s tr -> (forall n u c, In (n, OCall u c) tr -> wants c = Some h -> exists n' r, In (n', ORet u r) tr) -> forall t, ~ waits_on s t h.
Proof.
  intros X E t (c & p & N & W & P). destruct (exec_good _ _ _ X) as [(IA & _) _]. destruct (ia_born _ _ _ _ _ IA _ _ N) as (n & k & (a & b & -> & _)). cbn in *.
  destruct (E n t c) as (n' & r & J); [apply in_or_app; right; left; reflexivity|exact W|]. destruct (proj2 (exec_owners _ _ _ X) _ _ _ J) as (c' & E'). rewrite N in E'. injection E' as _ ->. elim (P r). reflexivity.
Qed.
Lemma event_call s0 es s tr c : exec s0 es s tr -> In (EvCall c) es -> exists n u, In (n, OCall u c) tr.
Proof.
  induction 1 as [|es s tr e s' os X IH ST]; intros J; [destruct J|]. apply in_app_or in J as [J|[->|[]]].
  - destruct (IH J) as (n & u & K). exists n, u. apply in_or_app. left. exact K.
  - cbn [step] in ST. destruct (start_call _ c _) as [k o]. injection ST as <- <-. exists (c_now s), (length (c_tasks s)). apply in_or_app. right. left. reflexivity.
Qed.
Definition is_recv (o : obs) : bool := match o with ORecv _ => true | _ => false end.
Lemma first_of_cons h x l m : is_recv (snd x) = false -> first_of h (x :: l) m -> first_of h l m.
Proof.
  intros R (a & n & bs & b & E & N & B & H). destruct a as [|y a]; cbn in E; injection E as -> E; [discriminate|]. exists a, n, bs, b. split; [exact E|].
  split; [intros n' bs' m' J; apply (N n' bs' m'); right; exact J|auto].
Qed.
Lemma first_of_snoc h x l m : is_recv (snd x) = false -> first_of h (l ++ [x]) m -> first_of h l m.
Proof.
  intros R (a & n & bs & b & E & N & B & H). destruct (app_cut _ _ _ _ _ E) as [(c & -> & _)|(c & -> & E')]; [exists a, n, bs, c; auto|].
  destruct c as [|y [|]]; try discriminate. cbn in E'. injection E' as -> _. discriminate.
Qed.
Lemma none_before_sub h n l l' : (forall x, In x l -> In x l') -> none_before h n l' -> none_before h n l.
Proof. intros S N n' bs m J. apply N. apply S. exact J. Qed.
(** a wait that nobody else shares returns the first such message after its start *)
Lemma wait_trace es s tr h tmo a n u b n' r rest : exec conn0 es s tr -> tr = a ++ (n, OCall u (CWait h tmo)) :: b ++ (n', ORet u r) :: rest ->
  (forall n1 u1 c1, In (n1, OCall u1 c1) a -> wants c1 = Some h -> exists n2 r2, In (n2, ORet u1 r2) a) -> (forall n1 u1 c1, In (n1, OCall u1 c1) b -> wants c1 <> Some h) ->
  match r with RMsg m => first_of h b m | RExc ETimeout => none_before h (n + tmo) b | RExc ECancelled => True | _ => False end.
Proof.
  intros X E NA NB.
  destruct (exec_cut _ _ _ _ _ _ _ X E) as (es1 & s1 & a1 & e & s2 & o1 & o2 & es2 & tr3 & X1 & S1 & X2 & EA & EB & EN & _). cbn [fst snd] in *.
  destruct (exec_good _ _ _ X1) as [G1 _]. destruct (call_obs _ _ _ _ _ _ _ G1 S1 ltac:(apply in_or_app; right; left; reflexivity)) as (-> & -> & os' & EO).
  assert (o1 = [] /\ o2 = []) as [-> ->].
  { pose proof (good_case _ _ _ _ _ G1 S1) as KC. inversion KC; subst; try discriminate.
    match goal with H : [_] = o1 ++ _ |- _ => destruct o1 as [|? [|]]; cbn in H; try discriminate; injection H as H; auto end. }
  cbn [stamp map app] in *. rewrite app_nil_r in EA. subst a1 n. clear EO os'.
  destruct (exec_cut _ _ _ _ _ _ _ X2 (eq_sym EB)) as (es3 & s3 & b1 & e & s4 & o1 & o2 & es4 & tr4 & X3 & S3 & X4 & EA & ER & EN & _). cbn [fst snd] in *.
  pose proof (exec_app _ _ _ _ _ _ _ (X_snoc _ _ _ _ _ _ _ X1 S1) X3) as X13. destruct (exec_good _ _ _ X13) as [G3 _].
  assert (o1 = [] /\ o2 = []) as [-> ->].
  { destruct (ret_obs _ _ _ _ _ _ _ G3 S3 ltac:(apply in_or_app; right; left; reflexivity)) as [EO|[_ EO]].
    - destruct o1 as [|? [|]]; cbn in EO; try discriminate. injection EO as EO. auto.
    - exfalso. destruct (called_task _ _ _ (c_now s1) (length (c_tasks s1)) (CWait h tmo) X13) as (p & E'); [rewrite <- app_assoc; apply in_or_app; right; left; reflexivity|].
      apply nth_lt in E'. lia. }
  cbn [stamp map app] in *. rewrite app_nil_r in EA. subst b1 n'.
  assert (X5 : exec s2 (es3 ++ [e]) s4 (b ++ [(c_now s3, ORet (length (c_tasks s1)) r)])) by exact (X_snoc _ _ _ _ _ _ _ X3 S3).
  assert (NC : forall c', In (EvCall c') (es3 ++ [e]) -> wants c' <> Some h).
  { intros c' J. destruct (event_call _ _ _ _ _ X5 J) as (n1 & u1 & J1). apply in_app_or in J1 as [J1|[J1|[]]]; [|discriminate]. exact (NB _ _ _ J1). }
  pose proof (alone_wait _ _ _ h tmo _ _ _ _ _ (c_now s3) r X1 (no_waits _ _ _ h X1 NA) S1 X5 NC) as O. cbn [stamp map app] in O.
  specialize (O ltac:(right; apply in_or_app; right; left; reflexivity)).
  destruct r as [v|m|ex]; [exact O| |].
  - apply first_of_cons in O; [|reflexivity]. apply first_of_snoc in O; [exact O|reflexivity].
  - destruct ex; try exact O; try exact Logic.I. eapply none_before_sub; [|exact O]. intros x J. right. apply in_or_app. left. exact J.
Qed.
