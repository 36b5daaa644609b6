(** C111: a request of a node object ends.  Statements only; proofs are in SystemLive.v and SystemBound.v.
    [ord] is the order in which python iterates over a set. *)
From Coq Require Import String ZArith List Bool Lia.
From Verif Require Import Py Schema Registry Codec Waiter Conn SpecConn SpecLive Gateway SpecGateway SpecGatewayLive NodeSendM NodeReq SpecNodeReq SpecNodeLive SystemM SpecSystem SpecSystemLive.
From Verif Require AppM SystemProofs SystemLive SystemBound.
Import ListNotations.
Open Scope list_scope.
Open Scope string_scope.
Open Scope list_scope.
Open Scope Z_scope.

(** ** C111 *)
(** a request that has not ended waits for a socket the gateway opens, and goes on whether it is opened or not; or for a call the gateway made on a
    connection to send its command, whose timer fires or which is resumed once its time has passed; or, the command having been acknowledged, for the
    answer, and its own timer fires or it is resumed once its time has passed *)
Theorem C111_alive ord es s tr k i u t cmd stmo : yexec ord sys0 es s tr -> In (k, YUse i u t cmd stmo) tr -> unanswered tr i u ->
  (forall r, ystep ord s (YGw (GEnv t r)) <> None) \/
  (exists l v, made (on_gw tr) t l v /\ running (on_link l (on_gw tr)) v /\ forall dt, allowance (on_link l (on_gw tr)) v <= dt ->
     exists s', ystep ord s (YAdvance dt) = Some (s', []) /\ (ystep ord s' (YGw (GConn l (EvTimer v))) <> None \/ ystep ord s' (YGw (GConn l (EvResume v))) <> None)) \/
  exists h tmo T, In (k, YN i (NCall u (NReq h tmo))) tr /\ In (T, YN i (NSent u (Ok true))) tr /\ forall dt, 0 <= dt -> T + Z.max 0 tmo <= y_now s + dt ->
     exists s', ystep ord s (YAdvance dt) = Some (s', []) /\ (ystep ord s' (YNode i (NEvTimer u)) <> None \/ ystep ord s' (YNode i (NEvResume u)) <> None).
Proof. exact (SystemLive.alive ord es s tr k i u t cmd stmo). Qed.
Print Assumptions C111_alive.
(** so it ends, whether sockets are opened or not, without a message of any node, any other request or anything of the application *)
Theorem C111_ends ord es s tr k i u t cmd stmo net : yexec ord sys0 es s tr -> In (k, YUse i u t cmd stmo) tr -> unanswered tr i u ->
  exists es2 s2 tr2 m r, yexec ord s es2 s2 tr2 /\ Forall (aids i u t (tr ++ tr2)) es2 /\ yanswers net es2 /\ In (m, YN i (NRet u r)) tr2.
Proof. exact (SystemLive.ends ord es s tr k i u t cmd stmo net). Qed.
Print Assumptions C111_ends.
(** with an event loop that does not fall behind, it ends within the time the calls made to send its command may take and its own time out *)
Theorem C111_in_time ord es s tr k i u t cmd stmo h tmo k' : prompt_yexec ord sys0 es s tr -> In (k, YUse i u t cmd stmo) tr -> In (k', YN i (NCall u (NReq h tmo))) tr ->
  (forall m r, In (m, YN i (NRet u r)) tr -> m <= k + total (on_gw tr) t + Z.max 0 tmo) /\ (unanswered tr i u -> y_now s <= k + total (on_gw tr) t + Z.max 0 tmo).
Proof. exact (SystemLive.in_time ord es s tr k i u t cmd stmo h tmo k'). Qed.
Print Assumptions C111_in_time.
(** that is: three seconds for the address of the node, the time out of the sending, its own, and what the node asked for *)
Theorem C111_bound ord es s tr k i u t cmd stmo h tmo k' : prompt_yexec ord sys0 es s tr -> In (k, YUse i u t cmd stmo) tr -> In (k', YN i (NCall u (NReq h tmo))) tr ->
  (forall m r, In (m, YN i (NRet u r)) tr -> m <= k + 3000 + Z.max 0 stmo + granted (on_gw tr) t + Z.max 0 tmo) /\
  (unanswered tr i u -> y_now s <= k + 3000 + Z.max 0 stmo + granted (on_gw tr) t + Z.max 0 tmo).
Proof. exact (SystemBound.bounded ord es s tr k i u t cmd stmo h tmo k'). Qed.
Print Assumptions C111_bound.

(** the application is told about node 5, the gateway connects, and the object of node 5 is asked for a report; nobody answers *)
Definition x_ord (l : list Z) : list Z := l.
Definition x_get : val := VObj (CMsg m_ZwavePlusInfo_Get) [].
Definition x_h : Z := 94 * 256 + 2.
Definition x_call : list yevent := map YApp [AppM.ECall (AppM.ALoad 5); AppM.EAnswer 0 (Ok (AppM.AInfo [94] 4 16 1 true))] ++
  map YGw [GCall GConnect; GEnv 0 (Ok tt); GConn None (EvPacket [35; 2; 64; 0; 1; 0; 0]); GConn None (EvResume 0)] ++ [YCall 0 (NReq x_h 3000) x_get 3000].
Definition x_alone : list yevent := YAdvance 3000 :: map YGw [GConn None (EvTimer 1); GConn None (EvResume 1); GConn None (EvResume 1)].
Definition x_ran (es : list yevent) : ytrace := match yrun x_ord sys0 es with Some (_, tr) => tr | None => [] end.
Example C111_case :
  (exists s, yexec x_ord sys0 x_call s (x_ran x_call)) /\ In (0, YUse 0 0 1 x_get 3000) (x_ran x_call) /\ unanswered (x_ran x_call) 0 0 /\
  (exists s, yexec x_ord sys0 (x_call ++ x_alone) s (x_ran (x_call ++ x_alone))) /\ Forall (aids 0 0 1 (x_ran (x_call ++ x_alone))) x_alone /\
  In (3000, YN 0 (NRet 0 (RExc ETimeout))) (x_ran (x_call ++ x_alone)).
Proof.
  assert (R : forall es, (if yrun x_ord sys0 es then true else false) = true -> exists s, yexec x_ord sys0 es s (x_ran es)).
  { intros es B. unfold x_ran. destruct (yrun x_ord sys0 es) as [[s tr]|] eqn:E; [|discriminate B]. exists s. apply SystemProofs.yrun_exec. exact E. }
  split; [apply R; vm_compute; reflexivity|]. split; [vm_compute; tauto|]. split; [intros n r J; vm_compute in J; intuition discriminate|]. split; [apply R; vm_compute; reflexivity|]. split.
  - assert (M : made (on_gw (x_ran (x_call ++ x_alone))) 1 None 1) by (unfold made; vm_compute; do 2 eexists; tauto). repeat constructor; exact M.
  - vm_compute. tauto.
Qed.
(** the longest wait: the address comes after almost three seconds, the node asks for 10 more seconds, which makes 70, then acknowledges, and never answers *)
Definition x_adv (n : Z) : gevent := GConn None (EvPacket [88; 1; 0; n; 253; 0; 0; 0; 0; 0; 0; 0; 0; 0; 0; 0; 0; 0; 0; n; 1; 2; 3; 4]).
(* meanwhile connect() gives up on the gateway mode and cannot open the unsolicited port *)
Definition x_other : list yevent := YAdvance 1 :: map YGw [GConn None (EvTimer 0); GConn None (EvResume 0); GConn None (EvResume 0); GEnv 0 (Err EValue)].
Definition x_long : list yevent := x_call ++ [YAdvance 2999] ++ map YGw [x_adv 5; GConn None (EvResume 1); GEnv 1 (Ok tt)] ++ x_other ++ [YAdvance 2998] ++
  map YGw [GConn (Some 0%nat) (EvPacket [35; 2; 48; 128; 1; 0; 0; 6; 1; 3; 0; 0; 10]); GConn (Some 0%nat) (EvResume 0)] ++ [YAdvance 69999] ++
  map YGw [GConn (Some 0%nat) (EvPacket [35; 2; 64; 0; 1; 0; 0]); GConn (Some 0%nat) (EvResume 0)] ++ [YAdvance 3000; YNode 0 (NEvTimer 0); YNode 0 (NEvResume 0); YNode 0 (NEvResume 0)].
Definition x_shown : ytrace := match SystemLive.prompt_yrun_of x_ord 1 sys0 x_long with Some (_, tr) => tr | None => [] end.
Example C111_prompt :
  (exists s, prompt_yexec x_ord sys0 x_long s x_shown) /\ In (0, YUse 0 0 1 x_get 3000) x_shown /\ In (0, YN 0 (NCall 0 (NReq x_h 3000))) x_shown /\
  In (78997, YN 0 (NRet 0 (RExc ETimeout))) x_shown /\ granted (on_gw x_shown) 1 = 70000.
Proof.
  split; [|split; [vm_compute; tauto|split; [vm_compute; tauto|split; [vm_compute; tauto|vm_compute; reflexivity]]]].
  unfold x_shown. destruct (SystemLive.prompt_yrun_of x_ord 1 sys0 x_long) as [[s tr]|] eqn:E; [|vm_compute in E; discriminate]. exists s.
  refine (SystemLive.prompt_yrun_ok x_ord 1 x_long [] sys0 [] s tr (YR_nil _ _) eq_refl E _).
  assert (B : match SystemLive.prompt_yrun_of x_ord 1 sys0 x_long with Some (_, tr) => SystemLive.below 1 tr | None => false end = true) by (vm_compute; reflexivity). rewrite E in B. exact B.
Qed.
