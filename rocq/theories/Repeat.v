(** Proofs about packets on the unsolicited socket: each command handed on has a packet of its own. *)
From Coq Require Import String ZArith List Bool Lia.
From Verif Require Import Py Schema Registry Codec Waiter Conn SpecConn Gateway SpecGateway GatewayProofs GatewayLinks GatewayStory GatewayNode SpecRepeat.
From Verif Require InterviewVisit.
Import ListNotations.
Open Scope list_scope.
Open Scope string_scope.
Open Scope list_scope.
Open Scope Z_scope.

Section Repeat.
Variable ord : list Z -> list Z.
Lemma lift_unsol l d os n ep cmd fl : ~ In (GTold None n ep cmd fl) (flat_map (lift l d) os).
Proof.
  intros J. apply in_flat_map in J as (o & _ & J). unfold lift in J. destruct J as [J|J]; [discriminate|]. destruct l as [i|]; [|destruct J]. destruct o; try contradiction. destruct J as [H|[]].
  unfold heard in H. destruct (node_of i (d_conns d)); discriminate.
Qed.
Lemma step_unsol s e s' os n ep cmd fl : gstep ord s e = Some (s', os) -> In (GTold None n ep cmd fl) os ->
  exists bs a m r, os = GPacket bs (Some a) :: r ++ [GTold None n ep cmd fl] /\ (r = [] \/ exists rs, r = [GReply rs a]) /\ decode bs = Ok m /\ listed s n a /\ ep = getattr m "sourceEP" /\ cmd = getattr m "command" /\ fl = getattr m "headerExtension".
Proof.
  assert (SP : forall c s0 s1 o1, spawn ord c s0 = (s1, o1) -> ~ In (GTold None n ep cmd fl) o1).
  { intros c s0 s1 o1 E J. destruct (start ord (length (g_tasks s0)) c (g_d s0)) as [[d os1] a] eqn:S. rewrite (spawn_eq _ _ _ _ _ _ S) in E. injection E as <- <-. destruct J as [J|J]; [discriminate|]. apply in_app_or in J as [J|J]; [|destruct a; [destruct J as [J|[]]; discriminate|exact J]].
    exact (not_told _ _ _ _ _ _ _ (start_ours _ _ _ _ _ _ _ S) J). }
  assert (WK : forall t w r fs s0 s1 o1, wake ord t w r fs s0 = (s1, o1) -> ~ In (GTold None n ep cmd fl) o1).
  { intros t w r fs s0 s1 o1 E J. unfold wake in E. destruct (unwind ord t r fs (g_d s0)) as [[d os1] a] eqn:U. injection E as <- <-. destruct J as [J|J]; [discriminate|]. apply in_app_or in J as [J|J]; [|destruct a; [destruct J as [J|[]]; discriminate|exact J]].
    exact (not_told _ _ _ _ _ _ _ (unwind_ours _ _ _ _ _ _ _ _ U) J). }
  destruct e as [dt|c|l0 e|t r|bs addr]; cbn [gstep].
  - destruct (0 <=? dt); [|discriminate]. intros E. injection E as <- <-. intros [].
  - intros E J. exfalso. assert (E' : Some (spawn ord c s) = Some (s', os)) by (destruct c; try exact E; discriminate). assert (E2 : spawn ord c s = (s', os)) by congruence. exact (SP _ _ _ _ E2 J).
  - intros E J. exfalso.
    assert (K : exists xs o2, os = flat_map (lift l0 (g_d s)) xs ++ o2 /\ ~ In (GTold None n ep cmd fl) o2).
    { destruct e; try discriminate; destruct (conn_at l0 (g_d s)) as [k|]; try discriminate; match type of E with context [step k ?x] => destruct (step k x) as [[k' xs]|]; [|discriminate] end;
        (destruct (returned xs) as [[uu rr]|]; [|injection E as <- <-; exists xs, []; rewrite app_nil_r; split; [reflexivity|intros []]]);
        (destruct (waiter_of l0 uu 0 (g_tasks s)) as [[tt0 fs]|]; [|injection E as <- <-; exists xs, []; rewrite app_nil_r; split; [reflexivity|intros []]]);
        match type of E with context [wake ord ?a0 ?b0 ?c0 ?d0 ?s0] => destruct (wake ord a0 b0 c0 d0 s0) as [s2 o2] eqn:W end; injection E as <- <-; exists xs, o2; (split; [reflexivity|]); exact (WK _ _ _ _ _ _ _ W). }
    destruct K as (xs & o2 & -> & N). apply in_app_or in J as [J|J]; [exact (lift_unsol _ _ _ _ _ _ _ J)|elim (N J)].
  - intros E J. exfalso. destruct (nth_error (g_tasks s) t) as [[c [w fs|]]|]; try discriminate. destruct w as [|l0|]; try discriminate.
    + destruct (conn_at l0 (g_d s)) as [k|]; [|discriminate]. match type of E with Some ?x = Some ?y => assert (E2 : x = y) by congruence end. exact (WK _ _ _ _ _ _ _ E2 J).
    + match type of E with Some ?x = Some ?y => assert (E2 : x = y) by congruence end. exact (WK _ _ _ _ _ _ _ E2 J).
  - intros E J. destruct (forallb is_byte bs); [|discriminate].
    assert (NU : In (GTold None n ep cmd fl) (fst (unsolicited bs addr (g_d s))) -> snd (unsolicited bs addr (g_d s)) = None /\ exists a m r, addr = Some a /\ fst (unsolicited bs addr (g_d s)) = r ++ [GTold None n ep cmd fl] /\ (r = [] \/ exists rs, r = [GReply rs a]) /\
      decode bs = Ok m /\ listed s n a /\ ep = getattr m "sourceEP" /\ cmd = getattr m "command" /\ fl = getattr m "headerExtension").
    { unfold unsolicited. destruct (decode bs) as [m|x] eqn:D; [|intros [K|[]]; discriminate K]. destruct addr as [a|]; [|intros [K|[]]; discriminate K]. cbv zeta. destruct (is_msg _ (getattr m "command")); [intros []|].
      destruct (from_ip a (d_nodes (g_d s))) as [n'|] eqn:F; [|intros [K|[]]; discriminate K].
      assert (L : listed s n' a). { unfold from_ip in F. destruct (find _ _) as [[n0 v]|] eqn:F'; [|discriminate]. apply find_some in F' as [F1 F2]. cbn in F2. destruct v; try discriminate. apply Z.eqb_eq in F2. injection F as ->. subst. exact F1. }
      destruct (truthy (getattr m "ackRequest")).
      - destruct (is_msg m_Zip_ZipPacket m); [|intros [K|[]]; discriminate K]. destruct (do x <- _; compose x) as [rs|x]; [|intros [K|[]]; discriminate K]. intros [K|[K|[]]]; [discriminate K|]. injection K as <- <- <- <-. split; [reflexivity|].
        exists a, m, [GReply rs a]. split; [reflexivity|]. split; [reflexivity|]. split; [right; eauto|]. auto 6.
      - intros [K|[]]. injection K as <- <- <- <-. split; [reflexivity|]. exists a, m, []. split; [reflexivity|]. split; [reflexivity|]. split; [auto|]. auto 6. }
    destruct (unsolicited bs addr (g_d s)) as [os0 [nodes|]].
    + exfalso. destruct (spawn ord (GReport nodes) s) as [s2 o2] eqn:S. injection E as <- <-. destruct J as [J|J]; [discriminate|]. apply in_app_or in J as [J|J]; [|exact (SP _ _ _ _ S J)]. destruct (NU J) as [K _]. discriminate K.
    + injection E as <- <-. destruct J as [J|J]; [discriminate|]. destruct (NU J) as (_ & a & m & r & -> & K & K'). cbn [fst] in K. exists bs, a, m, r. rewrite K. auto.
Qed.
Lemma last_at {A} (r : list A) x o1 o2 : r ++ [x] = o1 ++ x :: o2 -> ~ In x r -> o1 = r /\ o2 = [].
Proof.
  revert o1. induction r as [|y r IH]; intros o1 E N.
  - destruct o1 as [|z o1]; [injection E as <-; auto|]. injection E as _ E. destruct o1; discriminate.
  - destruct o1 as [|z o1]; [injection E as E _; elim N; left; congruence|]. injection E as <- E. destruct (IH o1 E) as [-> ->]; [intros J; apply N; right; exact J|auto].
Qed.
Lemma own_packet es s tr x k n ep cmd fl y : gexec ord gw0 es s tr -> tr = x ++ (k, GTold None n ep cmd fl) :: y ->
  exists x0 bs a m r, x = x0 ++ (k, GPacket bs (Some a)) :: r /\ (r = [] \/ exists rs, r = [(k, GReply rs a)]) /\ decode bs = Ok m /\ ep = getattr m "sourceEP" /\ cmd = getattr m "command" /\ fl = getattr m "headerExtension" /\
    exists es0 s0, gexec ord gw0 es0 s0 x0 /\ listed s0 n a.
Proof.
  intros X. revert x y. induction X as [|es s tr e s' os X IH ST]; intros x y E; [destruct x; discriminate|].
  destruct (InterviewVisit.split_two _ _ _ _ _ E) as [[c Y]|(c & -> & E')]; [exact (IH _ _ Y)|]. clear IH E.
  destruct (gstamp_cut _ _ _ _ _ E') as (o1 & o2 & O & -> & ->). cbn [snd] in O. assert (K : k = g_now s). { assert (J : In (k, GTold None n ep cmd fl) (gstamp (g_now s) os)) by (rewrite E'; apply in_or_app; right; left; reflexivity). apply in_map_iff in J as (q & Q & _). congruence. }
  destruct (step_unsol _ _ _ _ n ep cmd fl ST) as (bs & a & m & r & -> & R & D & L & E1 & E2 & E3). { rewrite O. apply in_or_app. right. left. reflexivity. }
  assert (P : o1 = GPacket bs (Some a) :: r /\ o2 = []). { apply (last_at (GPacket bs (Some a) :: r) (GTold None n ep cmd fl)); [exact O|]. intros [J|J]; [discriminate|]. destruct R as [->|[rs ->]]; [destruct J|destruct J as [J|[]]; discriminate]. }
  destruct P as [-> ->]. exists tr, bs, a, m, (gstamp k r). subst k. split; [reflexivity|]. split; [destruct R as [->|[rs ->]]; [auto|right; exists rs; reflexivity]|]. split; [exact D|]. split; [exact E1|]. split; [exact E2|]. split; [exact E3|]. exists es, s. auto.
Qed.
End Repeat.
