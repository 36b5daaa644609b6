(** How long a command sent to a node may take (C111). *)
From Coq Require Import String ZArith List Bool Lia Arith.
From Verif Require Import Py Schema Registry Codec Waiter Conn SpecConn SpecLive ConnLemmas ConnInv ConnProps.
From Verif Require Import Gateway SpecGateway SpecGatewayLive GatewayProofs GatewayStory GatewayLinks GatewayNode NodeSendM NodeReq SpecNodeReq SystemM SpecSystem SpecSystemLive SystemProofs SystemAnswer.
From Verif Require ConnLive GatewayPrompt SystemAnswer SystemLive.
Import ListNotations.
Open Scope list_scope.
Open Scope string_scope.
Open Scope list_scope.
Open Scope Z_scope.

Definition base (c : call) : Z := (if sending c then Z.max 0 (send_timeout c) else 0) + Z.max 0 (reply_timeout c).
Lemma base_pos c : 0 <= base c. Proof. unfold base. destruct (sending c); lia. Qed.
Lemma allowance_app a b u : allowance (a ++ b) u = allowance a u + allowance b u.
Proof. induction a as [|x a IH]; [reflexivity|]. cbn [app]. change (allowance (x :: a ++ b) u) with (share u (snd x) + allowance (a ++ b) u). change (allowance (x :: a) u) with (share u (snd x) + allowance a u). lia. Qed.
Lemma extra_cons x b u : extra (x :: b) u = (match snd x with ORearm w d => if Nat.eqb w u then Z.max 0 (1000 * d) else 0 | _ => 0 end) + extra b u.
Proof. reflexivity. Qed.
Lemma extra_app a b u : extra (a ++ b) u = extra a u + extra b u.
Proof. induction a as [|x a IH]; [reflexivity|]. cbn [app]. rewrite !extra_cons. lia. Qed.
Lemma uncalled tr u : (forall n c, ~ In (n, OCall u c) tr) -> allowance tr u = extra tr u.
Proof.
  induction tr as [|[n o] tr IH]; intros H; [reflexivity|]. change (allowance ((n, o) :: tr) u) with (share u o + allowance tr u). rewrite extra_cons, IH by (intros m c J; exact (H m c (or_intror J))). cbn [snd].
  destruct o; try reflexivity. cbn [share]. destruct (Nat.eqb_spec t u) as [->|]; [|reflexivity]. elim (H n c (or_introl eq_refl)).
Qed.
Lemma allowance_base tr n u c : always meaning tr -> In (n, OCall u c) tr -> allowance tr u = base c + extra tr u.
Proof.
  intros A J. apply in_split in J as (a & b & E).
  assert (O : forall x y m c', tr = x ++ (m, OCall u c') :: y -> length x = length a) by (intros x y m c' E'; destruct (split_unique _ A _ _ _ _ _ _ _ _ _ E E') as (-> & _); reflexivity).
  rewrite E, allowance_app, extra_app, extra_cons. change (allowance ((n, OCall u c) :: b) u) with (share u (OCall u c) + allowance b u). cbn [share snd]. rewrite Nat.eqb_refl. fold (base c).
  rewrite (uncalled a), (uncalled b); [unfold base; lia| |].
  - intros m c' J. apply in_split in J as (x & y & ->). specialize (O (a ++ (n, OCall u c) :: x) y m c'). rewrite E, <- app_assoc in O. specialize (O eq_refl). rewrite app_length in O. cbn in O. lia.
  - intros m c' J. apply in_split in J as (x & y & ->). specialize (O x (y ++ (n, OCall u c) :: b) m c'). rewrite E, <- app_assoc in O. specialize (O eq_refl). rewrite app_length in O. cbn in O. lia.
Qed.
(** the time outs of the calls of a task *)
Definition bsum (h : list gobs) : Z := fold_right (fun o a => (match o with GSub _ _ _ c => base c | _ => 0 end) + a) 0 h.
Lemma bsum_cons o h : bsum (o :: h) = (match o with GSub _ _ _ c => base c | _ => 0 end) + bsum h. Proof. reflexivity. Qed.
Lemma bsum_app a b : bsum (a ++ b) = bsum a + bsum b.
Proof. induction a as [|x a IH]; [reflexivity|]. cbn [app]. rewrite !bsum_cons. lia. Qed.
Lemma bsum_said t a : bsum (said t a) = 0. Proof. destruct a; reflexivity. Qed.
Lemma bsum_sub t l c d d' os a : sub t l c d = (d', os, a) -> 0 <= bsum (filter (mine t) os) <= base c.
Proof. intros E. pose proof (base_pos c). destruct (sub_mine _ _ _ _ _ _ _ E) as [(-> & _)|(u & -> & _)]; cbn; lia. Qed.
Lemma bsum_ip t n d d' os a : start_ip t n d = (d', os, a) -> bsum (filter (mine t) os) <= 3000.
Proof.
  unfold start_ip. destruct (solicit n) as [bs|e]; [|intros E; injection E as <- <- <-; cbn; lia].
  destruct (sub t None (CWait adv_hid 3000) d) as [[d1 os1] a1] eqn:S. pose proof (bsum_sub _ _ _ _ _ _ _ S) as L. cbn [base sending reply_timeout] in L. change (base (CWait adv_hid 3000)) with 3000 in L.
  destruct a1; intros E; injection E as <- <- <-; cbn [filter]; destruct (mine t _); rewrite ?bsum_cons; lia.
Qed.
Lemma bsum_link t n d d' os a : start_link t n d = (d', os, a) -> bsum (filter (mine t) os) <= 3000.
Proof.
  unfold start_link. destruct (dget Z.eqb n (d_conns d)); [intros E; injection E as <- <- <-; cbn; lia|]. unfold under.
  destruct (start_ip t n d) as [[d1 os1] [r|w fs]] eqn:S; pose proof (bsum_ip _ _ _ _ _ _ S) as L; cbn; intros E; injection E as <- <- <-; rewrite ?app_nil_r; exact L.
Qed.
Lemma dget_nat_in {V} k (d : list (nat * V)) v : dget Nat.eqb k d = Some v -> In (k, v) d.
Proof. induction d as [|[k' v'] d IH]; [discriminate|]. cbn. destruct (Nat.eqb_spec k k') as [->|]; [intros E; injection E as ->; left; reflexivity|intros E; right; exact (IH E)]. Qed.
Section Bound.
Variable ord : list Z -> list Z.
Definition bound_hist (t : nat) (c : gcall) (p : gpc) (h : list gobs) : Prop :=
  match c with
  | GSendTo n cmd sep dep tmo =>
      match p with
      | GWait w fs => (fs = [] /\ bsum h <= 3000 + Z.max 0 tmo) \/
          ((exists m, fs = [FIp m; FLink n; FSendTo cmd sep dep tmo]) \/ exists l, fs = [FOpen n l; FSendTo cmd sep dep tmo]) /\ bsum h <= 3000
      | GDone r => bsum h <= 3000 + Z.max 0 tmo
      end
  | _ => True
  end.
Lemma send_bound_hist t l n cmd sep dep tmo d d' os a h : bsum h <= 3000 -> sub t (Some l) (CSend cmd sep dep tmo) d = (d', os, a) -> bound_hist t (GSendTo n cmd sep dep tmo) (pc_of a) (h ++ filter (mine t) os ++ said t a).
Proof.
  intros H E. pose proof (bsum_sub _ _ _ _ _ _ _ E) as L. assert (Q : bsum (h ++ filter (mine t) os ++ said t a) <= 3000 + Z.max 0 tmo).
  { rewrite !bsum_app, bsum_said. unfold base in L. cbn [sending send_timeout reply_timeout] in L. lia. }
  destruct (sub_mine _ _ _ _ _ _ _ E) as [(_ & -> & _)|(u & _ & [->|(e & -> & _)])]; cbn [pc_of bound_hist]; [exact Q|left; split; [reflexivity|exact Q]|exact Q].
Qed.
Lemma bound_story es s tr : gexec ord gw0 es s tr -> forall t c p, nth_error (g_tasks s) t = Some (mkGT c p) -> bound_hist t c p (SpecGateway.own t tr).
Proof.
  intros X. refine (proj1 (story ord bound_hist _ _ es s tr X)); clear.
  - intros t c d d' os a S. destruct c; try exact I. cbn [start] in S. destruct (start_link t n d) as [[d1 os1] a1] eqn:SL. pose proof (bsum_link _ _ _ _ _ _ SL) as L. destruct (link_start _ _ _ _ _ _ SL) as (_ & _ & [(l & -> & -> & -> & G)|(G & [(e' & ->)|(u & ->)])]); cbn [under] in S.
    + unfold send_over in S. destruct (sub t (Some l) (CSend cmd sep dep tmo) d) as [[d2 os2] a2] eqn:SB. cbn in S. injection S as <- <- <-. refine (send_bound_hist _ _ n _ _ _ _ _ _ _ _ [GCalled t (GSendTo n cmd sep dep tmo)] _ SB). cbn. lia.
    + cbn in S. injection S as <- <- <-. cbn [pc_of bound_hist]. rewrite bsum_cons, bsum_app, bsum_said, ?app_nil_r. lia.
    + injection S as <- <- <-. cbn [pc_of bound_hist]. right. split; [left; eexists; reflexivity|]. rewrite bsum_cons, bsum_app, bsum_said. lia.
  - intros t c w fs r d d' os a h pre H B U. destruct c; try exact I. cbn [bound_hist] in H. destruct H as [(-> & H)|[[(m & ->)|(l & ->)] H]].
    + cbn in U. injection U as <- <- <-. cbn [pc_of bound_hist]. rewrite bsum_app. cbn. lia.
    + cbn [unwind] in U. destruct r as [[x|l]|e'].
      * cbn [frame_step] in U. destruct (getattr x "ipv6") eqn:IPV; cbn in U; injection U as <- <- <-; cbn [pc_of bound_hist]; try (rewrite bsum_app, bsum_cons, bsum_app, bsum_said; cbn; rewrite ?Nat.eqb_refl; cbn; lia).
        right. split; [right; eexists; reflexivity|]. rewrite bsum_app, bsum_cons, bsum_app, bsum_said; cbn; rewrite ?Nat.eqb_refl; cbn; lia.
      * cbn in U. injection U as <- <- <-. cbn [pc_of bound_hist]. rewrite bsum_app. cbn. lia.
      * destruct e'; cbn in U; injection U as <- <- <-; cbn [pc_of bound_hist]; rewrite bsum_app; cbn; lia.
    + cbn [unwind] in U. destruct r as [v|e']; [|destruct e'; cbn in U; injection U as <- <- <-; cbn [pc_of bound_hist]; rewrite bsum_app; cbn; lia]. cbn [frame_step ret unwind] in U. unfold send_over in U.
      assert (H' : bsum (h ++ [GBack t w (Ok v)]) <= 3000) by (rewrite bsum_app; cbn; lia).
      destruct (sub t (Some l) (CSend cmd sep dep tmo) _) as [[d2 os2] [r2|w2 fs2]] eqn:SB; cbn in U; injection U as <- <- <-; rewrite ?app_nil_r; change (GBack t w (Ok v) :: ?x) with ([GBack t w (Ok v)] ++ x).
      * pose proof (send_bound_hist _ _ n _ _ _ _ _ _ _ _ (h ++ [GBack t w (Ok v)]) H' SB) as Q. rewrite <- app_assoc in Q. exact Q.
      * pose proof (send_bound_hist _ _ n _ _ _ _ _ _ _ _ (h ++ [GBack t w (Ok v)]) H' SB) as Q. rewrite <- app_assoc in Q. cbn [pc_of said] in Q |- *. rewrite ?app_nil_r in *. exact Q.
Qed.
Lemma total_sum tr t sub : (forall n l u c, In (n, GSub t l u c) sub -> allowance (on_link l tr) u = base c + extra (on_link l tr) u) ->
  fold_right (fun x a => part tr t (snd x) + a) 0 sub = bsum (SpecGateway.own t sub) + fold_right (fun x a => (match snd x with GSub t' l v _ => if Nat.eqb t' t then extra (on_link l tr) v else 0 | _ => 0 end) + a) 0 sub.
Proof.
  induction sub as [|[n o] sub IH]; intros A; [reflexivity|]. cbn [fold_right snd]. rewrite IH by (intros m l u c J; exact (A m l u c (or_intror J))). clear IH.
  unfold SpecGateway.own. cbn [map filter snd]. destruct o as [l o|t' c|t' l u c|t' w r|t' m bs b|t' m ip|t' l m ip|l m ep cmd f|l cmd|t'|bs ad|bs ad|e|t' r]; cbn [part];
    try (destruct (mine t _); rewrite ?bsum_cons; lia).
  unfold mine. cbn [task_of]. destruct (Nat.eqb_spec t' t) as [->|]; [|lia]. rewrite bsum_cons, (A n l u c (or_introl eq_refl)). lia.
Qed.
Lemma total_granted es s tr t : gexec ord gw0 es s tr -> total tr t = bsum (SpecGateway.own t tr) + granted tr t.
Proof.
  intros X. apply total_sum. intros n l u c J. pose proof (GatewayPrompt.sub_called _ _ _ _ X _ _ _ _ _ J) as K. destruct (exec_linked _ _ _ _ X) as [_ XL]. destruct (XL l) as (evs & X0).
  exact (allowance_base _ _ _ _ (proj2 (exec_good _ _ _ X0)) K).
Qed.
Lemma send_total es s tr t n id cmd sep dep tmo : gexec ord gw0 es s tr -> In (n, GCalled t (GSendTo id cmd sep dep tmo)) tr -> total tr t <= 3000 + Z.max 0 tmo + granted tr t.
Proof.
  intros X C. destruct (called_call _ _ _ _ _ _ _ X C) as (p & E). pose proof (bound_story _ _ _ X _ _ _ E) as H. cbn [bound_hist] in H. rewrite (total_granted _ _ _ _ X).
  destruct p as [w fs|r]; [destruct H as [[_ H]|[_ H]]|]; lia.
Qed.
(** a request takes no longer than the search for the node's address, the sending of its command, the extensions granted to these and its own time out *)
Lemma bounded es s tr k i u t cmd stmo h tmo k' : prompt_yexec ord sys0 es s tr -> In (k, YUse i u t cmd stmo) tr -> In (k', YN i (NCall u (NReq h tmo))) tr ->
  (forall m r, In (m, YN i (NRet u r)) tr -> m <= k + 3000 + Z.max 0 stmo + granted (on_gw tr) t + Z.max 0 tmo) /\
  (unanswered tr i u -> y_now s <= k + 3000 + Z.max 0 stmo + granted (on_gw tr) t + Z.max 0 tmo).
Proof.
  intros P J NC. destruct (SystemLive.in_time _ _ _ _ _ _ _ _ _ _ _ _ _ P J NC) as [A B]. pose proof (SystemLive.prompt_y _ _ _ _ _ P) as X.
  destruct (SystemLive.sends_exec _ _ _ _ X _ _ _ _ _ _ J) as (S & _). pose proof (yexec_inv _ _ _ _ X) as V. destruct (v_gw _ _ _ V) as (ges & XG).
  apply dget_nat_in in S. destruct (v_sends _ _ _ V _ _ _ S) as (o & cmd' & stmo' & k1 & k2 & _ & J1 & J2). destruct (proj2 (SystemAnswer.use_once _ _ _ _ X) _ _ _ _ _ _ _ _ _ _ J J1) as (_ & -> & ->).
  apply in_gw in J2. unfold send_call in J2. pose proof (send_total _ _ _ _ _ _ _ _ _ _ XG J2) as L. split; [intros m r Q; specialize (A _ _ Q)|intros Q; specialize (B Q)]; lia.
Qed.
End Bound.
