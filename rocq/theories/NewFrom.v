(** Proofs about the addresses commands are sent to (C127). *)
From Coq Require Import String ZArith List Bool Lia.
From Verif Require Import Py Schema Registry Codec Waiter Conn SpecConn Gateway SpecGateway SpecTableFrom GatewayProofs GatewayLinks GatewayStory GatewayNode.
From Verif Require TableFrom.
Import ListNotations.
Open Scope list_scope.
Open Scope string_scope.
Open Scope list_scope.
Open Scope Z_scope.

Section New.
Variable ord : list Z -> list Z.
Lemma ours_new t os t' l n a : Forall (ours t) os -> In (GNew t' l n a) os -> t' = t.
Proof. rewrite Forall_forall. intros F J. exact (F _ J). Qed.
Lemma step_new es s tr e s' os t l n a : gexec ord gw0 es s tr -> gstep ord s e = Some (s', os) -> In (GNew t l n a) os -> exists o1 o2, os = o1 ++ GFound t n (VIPv6 a) :: GNew t l n a :: o2.
Proof.
  intros X ST J. pose proof (exec_linv _ _ _ _ X) as L. apply step_case in ST. destruct (F1 _ _ _ _ (step_facts _ _ _ _ _ _ L ST) _ _ _ _ J) as (_ & _ & c0 & p & N & _ & LP).
  destruct ST as [e s' os T S NT|e c d os a0 pre S NT _|e t0 c w fs r d1 d os a0 pre E SM B NT U].
  - rewrite Forall_forall in NT. discriminate (NT _ J).
  - exfalso. destruct (in_step pre _ os _ _ (GNew t l n a) NT ltac:(discriminate) J) as [H|[H|H]]; [discriminate H| |elim (not_said _ _ (GNew t l n a) ltac:(discriminate) H)].
    apply (ours_new _ _ _ _ _ _ (start_ours _ _ _ _ _ _ _ S)) in H. subst t. pose proof (proj1 (nth_error_Some (g_tasks s) (length (g_tasks s))) ltac:(congruence)). lia.
  - destruct (in_step pre _ os _ _ (GNew t l n a) NT ltac:(discriminate) J) as [H|[H|H]]; [discriminate H| |elim (not_said _ _ (GNew t l n a) ltac:(discriminate) H)].
    pose proof (ours_new _ _ _ _ _ _ (unwind_ours _ _ _ _ _ _ _ _ U) H) as ->. rewrite E in N. injection N as -> <-.
    inversion LP as [w' NW EQ|l' M EQ]; subst.
    + destruct r as [[v|x]|x].
      * cbn [unwind frame_step] in U. destruct (getattr v "ipv6") eqn:G; cbn [frame_step ret] in U;
          try (rewrite err_rest in U; injection U as <- <- <-; destruct H as [H|[]]; discriminate H).
        injection U as <- <- <-. destruct H as [H|[H|[]]]; [discriminate H|]. injection H as <- ->. exists (pre ++ [GBack t0 w (Ok (GV v))]), (said t0 (AWait (AwOpen (Some (length (d_links d1)))) (FOpen n (length (d_links d1)) :: rest_of c0))). rewrite <- app_assoc. reflexivity.
      * cbn [unwind frame_step ret] in U. rewrite err_rest in U. injection U as <- <- <-. destruct H.
      * exfalso. assert (F : forall f, (f = FIp n \/ f = FLink n) -> frame_step ord t0 f (Err x) d1 = ret (Err x) d1) by (intros f [->| ->]; destruct x; reflexivity).
        cbn [unwind] in U. rewrite F in U by auto. cbn [ret] in U. rewrite F in U by auto. cbn [ret] in U. rewrite err_rest in U. injection U as <- <- <-. destruct H.
    + exfalso. cbn [unwind] in U. destruct r as [v|x].
      * cbn [frame_step ret] in U. assert (Q : forall d2 d3 o3 a3, unwind ord t0 (Ok (GL l')) (rest_of c0) d2 = (d3, o3, a3) -> ~ In (GNew t0 l n a) o3).
        { intros d2 d3 o3 a3 U3. destruct c0; cbn [rest_of unwind] in U3; try (injection U3 as <- <- <-; intros []).
          cbn [frame_step] in U3. unfold send_over in U3. destruct (sub t0 (Some l') (CSend cmd sep dep tmo) d2) as [[d4 o4] a4] eqn:S4. destruct (sub_link _ _ _ _ _ _ _ S4) as (_ & SO & _). intros J4. destruct a4; [cbn [unwind ret] in U3; rewrite app_nil_r in U3|]; injection U3 as <- <- <-; elim (SO _ J4). }
        destruct (unwind ord t0 (Ok (GL l')) (rest_of c0) (set_conns (dset Z.eqb n l' (d_conns d1)) d1)) as [[d3 o3] a3] eqn:U3. injection U as <- <- <-. exact (Q _ _ _ _ U3 H).
      * assert (F : frame_step ord t0 (FOpen n l') (Err x) d1 = ret (Err x) d1) by (destruct x; reflexivity). rewrite F in U. cbn [ret] in U. rewrite err_rest in U. injection U as <- <- <-. destruct H.
Qed.
Lemma new_found es s tr k t l n a : gexec ord gw0 es s tr -> In (k, GNew t l n a) tr -> exists x y, tr = x ++ (k, GFound t n (VIPv6 a)) :: (k, GNew t l n a) :: y.
Proof.
  intros X. induction X as [|es s tr e s' os X IH ST]; intros J; [destruct J|]. apply in_stamped in J as [J|[-> J]].
  - destruct (IH J) as (x & y & ->). exists x, (y ++ gstamp (g_now s) os). rewrite <- app_assoc. reflexivity.
  - destruct (step_new _ _ _ _ _ _ _ _ _ _ X ST J) as (o1 & o2 & ->). exists (tr ++ gstamp (g_now s) o1), (gstamp (g_now s) o2). unfold gstamp. rewrite map_app, <- app_assoc. reflexivity.
Qed.
Lemma goes_to es s tr k t l u c : gexec ord gw0 es s tr -> In (k, GSub t (Some l) u c) tr ->
  exists k' n cmd sep dep tmo k0 t0 a x y, In (k', GCalled t (GSendTo n cmd sep dep tmo)) tr /\ c = CSend cmd sep dep tmo /\ tr = x ++ (k0, GFound t0 n (VIPv6 a)) :: (k0, GNew t0 l n a) :: y.
Proof.
  intros X J. destruct (proj1 (node_links _ _ _ _ X) _ _ _ _ _ J) as (k' & n & cmd & sep & dep & tmo & C & E & k0 & t0 & a & M). destruct (new_found _ _ _ _ _ _ _ _ X M) as (x & y & ET). exists k', n, cmd, sep, dep, tmo, k0, t0, a, x, y. auto.
Qed.
Lemma steady es s tr n a : iterates ord -> gexec ord gw0 es s tr -> (forall v, looked_up tr n v -> v = VIPv6 a) ->
  (forall k t l b, In (k, GNew t l n b) tr -> b = a) /\ (forall v, known s n = Some v -> v = VNone \/ v = VIPv6 a).
Proof.
  intros I X H. split.
  - intros k t l b J. destruct (new_found _ _ _ _ _ _ _ _ X J) as (x & y & E). assert (Q : VIPv6 b = VIPv6 a) by (apply H; exists k, t; rewrite E; apply in_or_app; right; left; reflexivity). congruence.
  - intros v K. destruct (TableFrom.table_from ord I es s tr n v X K) as [_ [->|L]]; auto.
Qed.
End New.
