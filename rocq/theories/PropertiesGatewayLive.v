(** C107: no call of the gateway is forgotten.  Statements only; proofs are in GatewayLive.v.
    [ord] is the order in which python iterates over a set. *)
From Coq Require Import String ZArith List Bool Lia.
From Verif Require Import Py Schema Registry Codec Waiter Conn SpecConn SpecLive Gateway SpecGateway SpecGatewayLive.
From Verif Require GatewayNm GatewayLive GatewayPrompt.
Import ListNotations.
Open Scope list_scope.
Open Scope string_scope.
Open Scope list_scope.
Open Scope Z_scope.

(** ** C107 *)
(** a call that has not ended waits for a socket, and goes on whether it is opened or not, or for one call it made on a
    connection, whose timer fires or which is resumed once its time has passed *)
Theorem C107_alive ord es s tr t : gexec ord gw0 es s tr -> open_task tr t ->
  (forall r, gstep ord s (GEnv t r) <> None) \/
  exists l u, made tr t l u /\ running (on_link l tr) u /\
    forall dt, allowance (on_link l tr) u <= dt ->
      exists s', gstep ord s (GAdvance dt) = Some (s', []) /\ (gstep ord s' (GConn l (EvTimer u)) <> None \/ gstep ord s' (GConn l (EvResume u)) <> None).
Proof. exact (GatewayLive.alive ord es s tr t). Qed.
Print Assumptions C107_alive.
(** so it ends, whether sockets are opened or not, without a message of any node and without help of any other task *)
Theorem C107_ends ord es s tr t net : gexec ord gw0 es s tr -> open_task tr t ->
  exists es2 s2 tr2 n r, gexec ord s es2 s2 tr2 /\ Forall (helps t (tr ++ tr2)) es2 /\ answers net es2 /\ In (n, GRet t r) tr2.
Proof. exact (GatewayLive.ends ord es s tr t net). Qed.
Print Assumptions C107_ends.
(** with an event loop that does not fall behind, it ends within the time the calls it made on connections may take *)
Theorem C107_in_time ord es s tr t c n : prompt_gexec ord gw0 es s tr -> In (n, GCalled t c) tr ->
  (forall m r, In (m, GRet t r) tr -> m <= n + total tr t) /\ ((forall m r, ~ In (m, GRet t r) tr) -> g_now s <= n + total tr t).
Proof. exact (GatewayPrompt.in_time ord es s tr t c n). Qed.
Print Assumptions C107_in_time.
(** connect() with a gateway that never says anything *)
Definition x_expire (u : nat) : list gevent := [GAdvance 3000; GConn None (EvTimer u); GConn None (EvResume u); GConn None (EvResume u)].
Definition x_alone : list gevent := GEnv 0 (Ok tt) :: x_expire 0 ++ x_expire 0 ++ GEnv 0 (Ok tt) :: x_expire 1 ++ x_expire 2 ++ x_expire 2.
Definition x_ran (es : list gevent) : gtrace := match grun (fun l => l) gw0 es with Some (_, tr) => tr | None => [] end.
Example C107_case :
  (exists s, gexec (fun l => l) gw0 (GCall GConnect :: x_alone) s (x_ran (GCall GConnect :: x_alone))) /\
  open_task (x_ran [GCall GConnect]) 0 /\ Forall (helps 0 (x_ran (GCall GConnect :: x_alone))) x_alone /\ answers (fun _ => Ok tt) x_alone /\
  In (15000, GRet 0 (Ok (GV VNone))) (x_ran (GCall GConnect :: x_alone)).
Proof.
  split; [|split; [|split; [|split]]].
  - destruct (grun (fun l => l) gw0 (GCall GConnect :: x_alone)) as [[s tr]|] eqn:E; [|vm_compute in E; discriminate]. exists s. unfold x_ran. rewrite E. apply GatewayNm.grun_exec. exact E.
  - split; [exists 0, GConnect; vm_compute; tauto|]. intros n r J. vm_compute in J. intuition discriminate.
  - assert (M : forall u, In u [0; 1; 2]%nat -> made (x_ran (GCall GConnect :: x_alone)) 0 None u).
    { intros u J. unfold made. destruct J as [<-|[<-|[<-|[]]]]; vm_compute; do 2 eexists; tauto. }
    repeat constructor; try exact I; try reflexivity; apply M; cbn; tauto.
  - intros i t r N. do 24 (destruct i as [|i]; [cbn in N; try discriminate N; injection N as _ <-; reflexivity|]). destruct i; discriminate.
  - vm_compute. tauto.
Qed.
(** it is the time those calls may take: 3 seconds for each acknowledgement and each reply *)
Example C107_prompt : exists s, prompt_gexec (fun l => l) gw0 (GCall GConnect :: x_alone) s (x_ran (GCall GConnect :: x_alone)) /\ total (x_ran (GCall GConnect :: x_alone)) 0 = 15000.
Proof.
  destruct (GatewayPrompt.prompt_grun_of (fun l => l) gw0 (GCall GConnect :: x_alone)) as [[s tr]|] eqn:E; [|vm_compute in E; discriminate]. exists s. split; [|vm_compute; reflexivity].
  replace (x_ran (GCall GConnect :: x_alone)) with tr; [apply GatewayPrompt.prompt_grun_ok; exact E|]. vm_compute in E. injection E as _ <-. vm_compute. reflexivity.
Qed.
