(** Proofs for C106: a node's requests end. *)
From Coq Require Import String ZArith List Bool Lia Arith.
From Verif Require Import Py Schema Codec Waiter Conn ConnLemmas NodeReq SpecNodeReq SpecNodeLive NodeReqProofs NodeFresh.
Import ListNotations.
Open Scope list_scope.
Open Scope Z_scope.

(** what a step can do to a request *)
Inductive move (t : nat) (now : Z) (c : ncall) : nevent -> npc -> npc -> list nobs -> Prop :=
| M_stay e p os : nown t e = false -> (forall r, ~ In (NSent t r) os) -> (forall r, ~ In (NRet t r) os) -> move t now c e p p os
| M_sent h tmo f ph : c = NReq h tmo -> move t now c (NEvSent t (Ok true)) NSending (NWaiting h f (now + tmo) ph) [NSent t (Ok true)]
| M_fail r r' : r <> Ok true -> move t now c (NEvSent t r) NSending (NDone r') [NSent t r; NRet t r']
| M_timer h f dl : move t now c (NEvTimer t) (NWaiting h f dl PhWaiting) (NWaiting h f dl PhExpired) []
| M_expire h f dl : move t now c (NEvResume t) (NWaiting h f dl PhExpired) (NWaiting h f dl PhExpiring) []
| M_end h f dl ph r : move t now c (NEvResume t) (NWaiting h f dl ph) (NDone r) [NRet t r]
| M_cend h f r : move t now c (NEvResume t) (NCancel h f) (NDone r) [NRet t r]
| M_drop r : move t now c (NEvCancel t) NSending (NDone r) [NRet t r]
| M_cancel h f dl ph : move t now c (NEvCancel t) (NWaiting h f dl ph) (NCancel h f) [].

Lemma wait_at t h tmo s x : nth_error (n_tasks s) t = Some x ->
  exists f ph w, n_wait t h tmo s = n_setpc t (NWaiting h f (n_now s + tmo) ph) (n_setw w s).
Proof.
  intros H. unfold n_wait. destruct (add_session h (n_w s)) as [f w]. destruct (0 <? tmo); [eexists _, _, _; reflexivity|].
  destruct (nth_error (w_futs w) f) as [[]|]; eexists _, _, _; reflexivity.
Qed.
Lemma set_at u p s t x : nth_error (n_tasks s) t = Some x ->
  nth_error (n_tasks (n_setpc u p s)) t = Some (if Nat.eqb u t then mkNT (n_call x) p else x).
Proof.
  intros H. unfold n_setpc. destruct (nth_error (n_tasks s) u) as [y|] eqn:E; cbn.
  - rewrite nth_upd. destruct (Nat.eqb_spec u t) as [->|]; [|exact H]. rewrite E. assert (y = x) by congruence. subst. reflexivity.
  - destruct (Nat.eqb_spec u t) as [->|]; [congruence|exact H].
Qed.

Lemma step_move s e s' os t x : nstep s e = Some (s', os) -> nth_error (n_tasks s) t = Some x ->
  exists y, nth_error (n_tasks s') t = Some y /\ n_call y = n_call x /\ move t (n_now s) (n_call x) e (n_pc x) (n_pc y) os.
Proof.
  intros ST H. destruct e as [dt|c|u r|m|u|u|u]; cbn in ST.
  - destruct (0 <=? dt); [|discriminate]. injection ST as <- <-. exists x. repeat split; [exact H|apply M_stay; cbn; tauto].
  - assert (LT : (t < length (n_tasks s))%nat) by (apply nth_error_Some; congruence).
    destruct c as [h tmo|h tmo].
    + destruct (add_session h (n_w s)) as [f w]. injection ST as <- <-. exists x. cbn. rewrite nth_error_app1 by exact LT. repeat split; [exact H|].
      apply M_stay; [reflexivity|intros r [Q|[]]; discriminate|intros r [Q|[]]; discriminate].
    + injection ST as <- <-. set (s1 := mkN _ _ _). assert (H1 : nth_error (n_tasks s1) t = Some x) by (cbn; rewrite nth_error_app1 by exact LT; exact H).
      destruct (wait_at (length (n_tasks s)) h tmo s1 (mkNT (NWait h tmo) NSending)) as (f & ph & w & ->); [cbn; rewrite nth_error_app2, Nat.sub_diag by lia; reflexivity|].
      exists x. rewrite (set_at _ _ (n_setw w s1) t x H1). destruct (Nat.eqb_spec (length (n_tasks s)) t); [lia|]. repeat split.
      apply M_stay; [reflexivity|intros r [Q|[]]; discriminate|intros r [Q|[]]; discriminate].
  - destruct (nth_error (n_tasks s) u) as [[[h tmo|] []]|] eqn:E; try discriminate.
    assert (F : forall r', r <> Ok true -> Some (n_setpc u (NDone r') s, [NSent u r; NRet u r']) = Some (s', os) ->
       exists y, nth_error (n_tasks s') t = Some y /\ n_call y = n_call x /\ move t (n_now s) (n_call x) (NEvSent u r) (n_pc x) (n_pc y) os).
    { intros r' NR Q. injection Q as <- <-. rewrite (set_at u _ s t x H). destruct (Nat.eqb_spec u t) as [->|N].
      - rewrite H in E. injection E as ->. eexists. repeat split. cbn. apply M_fail. exact NR.
      - exists x. repeat split. apply M_stay; [reflexivity|intros q [Q|[Q|[]]]; congruence|intros q [Q|[Q|[]]]; congruence]. }
    destruct r as [[]|er]; [|apply (F (RExc ETimeout)); [discriminate|exact ST]|apply (F (RExc er)); [discriminate|exact ST]].
    injection ST as <- <-. destruct (wait_at u h tmo s _ E) as (f & ph & w & ->). rewrite (set_at u _ (n_setw w s) t x H). destruct (Nat.eqb_spec u t) as [->|N].
    + rewrite H in E. injection E as ->. eexists. repeat split. cbn. apply M_sent. reflexivity.
    + exists x. repeat split. apply M_stay; [reflexivity|intros q [Q|[]]; congruence|intros q [Q|[]]; congruence].
  - destruct m; try discriminate. destruct (message_received _ (n_w s)) as [w r]. injection ST as <- <-. exists x. repeat split; [exact H|].
    apply M_stay; [reflexivity|intros q [Q|[]]; discriminate|intros q [Q|[]]; discriminate].
  - destruct (nth_error (n_tasks s) u) as [[c [| h f dl [] | |]]|] eqn:E; try discriminate. destruct (dl <=? n_now s); [|discriminate]. injection ST as <- <-.
    rewrite (set_at u _ s t x H). destruct (Nat.eqb_spec u t) as [->|N].
    + rewrite H in E. injection E as ->. eexists. repeat split. cbn. apply M_timer.
    + exists x. repeat split. apply M_stay; [cbn; apply Nat.eqb_neq; exact N|cbn; tauto|cbn; tauto].
  - assert (F : forall c h f dl ph (w : waiter) r, (forall q, n_pc q = NWaiting h f dl ph -> nth_error (n_tasks s) u = Some q -> n_call q = c) -> nth_error (n_tasks s) u = Some (mkNT c (NWaiting h f dl ph)) ->
       Some (n_finish u r (n_setw w s)) = Some (s', os) -> exists y, nth_error (n_tasks s') t = Some y /\ n_call y = n_call x /\ move t (n_now s) (n_call x) (NEvResume u) (n_pc x) (n_pc y) os).
    { intros c h f dl ph w r _ E Q. injection Q as <- <-. rewrite (set_at u _ (n_setw w s) t x H). destruct (Nat.eqb_spec u t) as [->|N].
      - rewrite H in E. injection E as ->. eexists. repeat split. cbn. apply M_end.
      - exists x. repeat split. apply M_stay; [cbn; apply Nat.eqb_neq; exact N|intros q [Q|[]]; congruence|intros q [Q|[]]; congruence]. }
    destruct (nth_error (n_tasks s) u) as [[c [| h f dl ph | h f |]]|] eqn:E; try discriminate.
    + assert (T : forall q, n_pc q = NWaiting h f dl ph -> Some (mkNT c (NWaiting h f dl ph)) = Some q -> n_call q = c) by (intros q _ Q; injection Q as <-; reflexivity).
      assert (G : nth_error (n_tasks s) u = Some (mkNT c (NWaiting h f dl ph))) by exact E. 
      unfold n_resume in ST. destruct (nth_error (w_futs (n_w s)) f) as [[| |]|], ph; try discriminate; try (eapply F; [exact T|reflexivity|exact ST]).
      injection ST as <- <-; match goal with |- context [n_setpc _ _ (n_setw ?w ?s0)] => rewrite (set_at u _ (n_setw w s) t x H) end; destruct (Nat.eqb_spec u t) as [->|N];
        [rewrite H in G; injection G as ->; eexists; repeat split; cbn; apply M_expire
        |exists x; repeat split; apply M_stay; [cbn; apply Nat.eqb_neq; exact N|cbn; tauto|cbn; tauto]].
    + injection ST as <- <-. match goal with |- context [n_setpc _ _ (n_setw ?w s)] => rewrite (set_at u _ (n_setw w s) t x H) end. destruct (Nat.eqb_spec u t) as [->|N].
      * rewrite H in E. injection E as ->. eexists. repeat split. cbn. apply M_cend.
      * exists x. repeat split. apply M_stay; [cbn; apply Nat.eqb_neq; exact N|intros q [Q|[]]; congruence|intros q [Q|[]]; congruence].
  - destruct (nth_error (n_tasks s) u) as [[c [| h f dl ph | h f |]]|] eqn:E; try discriminate; injection ST as <- <-.
    + rewrite (set_at u _ s t x H). destruct (Nat.eqb_spec u t) as [->|N].
      * rewrite H in E. injection E as ->. eexists. repeat split. cbn. apply M_drop.
      * exists x. repeat split. apply M_stay; [reflexivity|intros q [Q|[]]; congruence|intros q [Q|[]]; congruence].
    + match goal with |- context [n_setpc _ _ (n_setw ?w s)] => rewrite (set_at u _ (n_setw w s) t x H) end. destruct (Nat.eqb_spec u t) as [->|N].
      * rewrite H in E. injection E as ->. eexists. repeat split. cbn. apply M_cancel.
      * exists x. repeat split. apply M_stay; [reflexivity|cbn; tauto|cbn; tauto].
Qed.
(** a new request *)
Lemma step_new s e s' os t y : nstep s e = Some (s', os) -> nth_error (n_tasks s) t = None -> nth_error (n_tasks s') t = Some y ->
  exists c, e = NEvCall c /\ os = [NCall t c] /\ n_call y = c /\ t = length (n_tasks s) /\
    match c with NReq _ _ => n_pc y = NSending | NWait h tmo => exists f ph, n_pc y = NWaiting h f (n_now s + tmo) ph end.
Proof.
  intros ST N Y. destruct (step_tasks s e s' os ST) as (_ & L & NC & _). apply nth_error_None in N as LE.
  assert (LT : (t < length (n_tasks s'))%nat) by (apply nth_error_Some; congruence).
  destruct e as [dt|c|u r|m|u|u|u]; try lia. assert (t = length (n_tasks s)) by lia. subst t. destruct (NC c eq_refl) as [-> _]. exists c. repeat split.
  - cbn in ST. destruct c as [h tmo|h tmo].
    + destruct (add_session h (n_w s)). injection ST as <-. cbn in Y. rewrite nth_error_app2, Nat.sub_diag in Y by lia. injection Y as <-. reflexivity.
    + injection ST as <-. set (s1 := mkN _ _ _) in Y. assert (H1 : nth_error (n_tasks s1) (length (n_tasks s)) = Some (mkNT (NWait h tmo) NSending)) by (cbn; rewrite nth_error_app2, Nat.sub_diag by lia; reflexivity).
      destruct (wait_at _ h tmo s1 _ H1) as (f & ph & w & Q). rewrite Q in Y. rewrite (set_at _ _ (n_setw w s1) _ _ H1), Nat.eqb_refl in Y. injection Y as <-. reflexivity.
  - cbn in ST. destruct c as [h tmo|h tmo].
    + destruct (add_session h (n_w s)). injection ST as <-. cbn in Y. rewrite nth_error_app2, Nat.sub_diag in Y by lia. injection Y as <-. reflexivity.
    + injection ST as <-. set (s1 := mkN _ _ _) in Y. assert (H1 : nth_error (n_tasks s1) (length (n_tasks s)) = Some (mkNT (NWait h tmo) NSending)) by (cbn; rewrite nth_error_app2, Nat.sub_diag by lia; reflexivity).
      destruct (wait_at _ h tmo s1 _ H1) as (f & ph & w & Q). rewrite Q in Y. rewrite (set_at _ _ (n_setw w s1) _ _ H1), Nat.eqb_refl in Y. injection Y as <-. cbn. exists f, ph. reflexivity.
Qed.

(** the trace and the stage of a request *)
Definition ctmo (c : ncall) : Z := match c with NReq _ tmo | NWait _ tmo => tmo end.
Definition stage (t : nat) (now : Z) (c : ncall) (p : npc) (tr : ntrace) : Prop :=
  match p with
  | NSending => (exists h tmo, c = NReq h tmo) /\ (forall m r, ~ In (m, NSent t r) tr) /\ (forall m r, ~ In (m, NRet t r) tr)
  | NWaiting _ _ dl _ => (exists T, waits_from tr T t c /\ dl = T + ctmo c /\ T <= now) /\ (forall m r, ~ In (m, NRet t r) tr)
  | NCancel _ _ => (exists T, waits_from tr T t c) /\ (forall m r, ~ In (m, NRet t r) tr)
  | NDone r => exists m, In (m, NRet t r) tr
  end.
Lemma waits_more tr tr' T t c : waits_from tr T t c -> waits_from (tr ++ tr') T t c.
Proof. destruct c; cbn; intros; apply in_or_app; auto. Qed.
Lemma stage_exec es s tr : nexec nstate0 es s tr -> forall t x, nth_error (n_tasks s) t = Some x -> stage t (n_now s) (n_call x) (n_pc x) tr.
Proof.
  induction 1 as [|es s tr e s' os X IH ST]; intros t y Y; [destruct t; discriminate|].
  destruct (exec_told _ _ _ X) as [TC TT TR TN]. destruct (step_tasks s e s' os ST) as (_ & _ & _ & _ & _ & OS & _ & NN & NE).
  assert (NI : forall (P : nobs -> Prop), (forall m o, In (m, o) tr -> ~ P o) -> (forall o, In o os -> ~ P o) -> forall m o, In (m, o) (tr ++ nstamp (n_now s) os) -> ~ P o).
  { intros P A B m o I. apply in_app_or in I as [I|I]; [eauto|]. apply in_stamp in I as [_ I]. auto. }
  assert (NIr : (forall m r, ~ In (m, NRet t r) tr) -> (forall r, ~ In (NRet t r) os) -> forall m r, ~ In (m, NRet t r) (tr ++ nstamp (n_now s) os)).
  { intros A B m r I. apply in_app_or in I as [I|I]; [exact (A _ _ I)|]. apply in_stamp in I as [_ I]. exact (B _ I). }
  assert (NIs : (forall m r, ~ In (m, NSent t r) tr) -> (forall r, ~ In (NSent t r) os) -> forall m r, ~ In (m, NSent t r) (tr ++ nstamp (n_now s) os)).
  { intros A B m r I. apply in_app_or in I as [I|I]; [exact (A _ _ I)|]. apply in_stamp in I as [_ I]. exact (B _ I). }
  destruct (nth_error (n_tasks s) t) as [x|] eqn:E.
  - destruct (step_move s e s' os t x ST E) as (y' & Y' & C & M). assert (y' = y) by congruence. subst y'. rewrite C. specialize (IH t x E). clear Y Y' C.
    set (q := n_pc y) in *. clearbody q. set (p := n_pc x) in *. clearbody p.
    destruct M as [e p os O S R|h tmo f ph Q|r r' N|h f dl|h f dl|h f dl ph r|h f r|r|h f dl ph]; cbn [stage] in IH |- *; cbn [nstamp map] in *.
    + destruct p as [|h f dl ph|h f|r]; cbn [stage] in IH |- *.
      * destruct IH as (A & B & D). auto.
      * destruct IH as ((T & A & B & D) & F). split; [exists T; split; [apply waits_more, A|split; [exact B|lia]]|auto].
      * destruct IH as ((T & A) & F). split; [exists T; apply waits_more, A|auto].
      * destruct IH as [m I]. exists m. apply in_or_app. auto.
    + destruct IH as (A & B & D). rewrite Q. cbn. split; [exists (n_now s); split; [apply in_or_app; right; left; reflexivity|split; [reflexivity|lia]]|].
      apply NIr; [exact D|intros r [J|[]]; discriminate].
    + exists (n_now s). apply in_or_app. right. right. left. reflexivity.
    + rewrite app_nil_r. destruct IH as ((T & A & B & D) & F). split; [exists T; split; [exact A|split; [exact B|lia]]|exact F].
    + rewrite app_nil_r. destruct IH as ((T & A & B & D) & F). split; [exists T; split; [exact A|split; [exact B|lia]]|exact F].
    + exists (n_now s). apply in_or_app. right. left. reflexivity.
    + exists (n_now s). apply in_or_app. right. left. reflexivity.
    + exists (n_now s). apply in_or_app. right. left. reflexivity.
    + rewrite app_nil_r. destruct IH as ((T & A & B & D) & F). split; [exists T; exact A|exact F].
  - destruct (step_new s e s' os t y ST E Y) as (c & -> & -> & -> & L & P).
    assert (NR : forall m r, ~ In (m, NRet t r) tr) by (intros m r I; destruct (TR _ _ _ I) as (x & A & _); congruence).
    assert (NS : forall es s tr, nexec nstate0 es s tr -> forall m u r, In (m, NSent u r) tr -> (u < length (n_tasks s))%nat).
    { clear. induction 1 as [|es s tr e s' os X IH ST]; intros m u r I; [destruct I|]. destruct (step_tasks s e s' os ST) as (_ & L & _ & _ & _ & OS & _).
      apply in_app_or in I as [I|I]; [specialize (IH _ _ _ I); lia|]. apply in_stamp in I as [_ I]. apply OS in I as ->. cbn in ST.
      destruct (nth_error (n_tasks s) u) eqn:E; [|discriminate]. assert (u < length (n_tasks s))%nat by (apply nth_error_Some; congruence). lia. }
    destruct c as [h tmo|h tmo].
    + rewrite P. cbn [stage]. split; [eauto|]. split; [apply NIs|apply NIr; [exact NR|]]; [|intros r [J|[]]; discriminate|intros r [J|[]]; discriminate].
      intros m r I. apply (NS _ _ _ X) in I. lia.
    + destruct P as (f & ph & ->). cbn [stage]. split; [|apply NIr; [exact NR|intros r [J|[]]; discriminate]].
      exists (n_now s). cbn. split; [apply in_or_app; right; left; reflexivity|split; [reflexivity|lia]].
Qed.

Lemma sent_once es s tr : nexec nstate0 es s tr -> forall t T T' c x, nth_error (n_tasks s) t = Some x -> n_call x = c -> waits_from tr T t c -> waits_from tr T' t c -> T = T'.
Proof.
  induction 1 as [|es s tr e s' os X IH ST]; intros t T T' c y Y C A B; [destruct c; destruct A|].
  assert (OLD : forall x, nth_error (n_tasks s) t = Some x -> n_call x = c -> forall T, (forall r, ~ In (NSent t r) os) -> waits_from (tr ++ nstamp (n_now s) os) T t c -> waits_from tr T t c).
  { intros x E CX T0 N W. destruct c; cbn in W |- *; apply in_app_or in W as [W|W]; auto; apply in_stamp in W as [_ W]; [destruct (N _ W)|].
    destruct (step_tasks s e s' os ST) as (_ & _ & _ & OC & _). apply OC in W as [-> ->]. assert (length (n_tasks s) < length (n_tasks s))%nat by (apply nth_error_Some; congruence). lia. }
  destruct (nth_error (n_tasks s) t) as [x|] eqn:E.
  - destruct (step_move s e s' os t x ST E) as (y' & Y' & CC & M). assert (y' = y) by congruence. subst y'. assert (CX : n_call x = c) by congruence.
    pose proof (stage_exec _ _ _ X t x E) as SG. set (q := n_pc y) in *. clearbody q. set (p := n_pc x) in *. clearbody p.
    assert (KEEP : (forall r, ~ In (NSent t r) os) -> T = T') by (intros N; eapply (IH t T T' c x E CX); eapply OLD; first [exact E|exact CX|exact N|assumption|reflexivity]).
    destruct M as [e p os O S R|h tmo f ph Q|r r' N|h f dl|h f dl|h f dl ph r|h f r|r|h f dl ph]; try (apply KEEP; cbn; intros r0 J; repeat destruct J as [J|J]; try discriminate; tauto).
    + apply KEEP. exact S.
    + assert (CR : c = NReq h tmo) by congruence. destruct SG as (_ & NS & _). rewrite CR in A, B. cbn in A, B.
      apply in_app_or in A as [A|A]; [destruct (NS _ _ A)|]. apply in_app_or in B as [B|B]; [destruct (NS _ _ B)|]. destruct A as [A|[]], B as [B|[]]. congruence.
    + destruct SG as ((h & tmo & Q) & NS & _). assert (CR : c = NReq h tmo) by congruence. rewrite CR in A, B. cbn in A, B.
      apply in_app_or in A as [A|A]; [destruct (NS _ _ A)|]. destruct A as [A|[A|[]]]; [congruence|discriminate].
  - destruct (step_new s e s' os t y ST E Y) as (c' & -> & -> & CY & L & P). assert (Q0 : c' = c) by congruence. rewrite Q0 in *. clear Q0. destruct (exec_told _ _ _ X) as [TC TT TR TN].
    destruct c as [h tmo|h tmo]; cbn in A, B, P.
    + pose proof (stage_exec _ _ _ (NX_snoc _ _ _ _ _ _ _ X ST) t y Y) as SG. rewrite P in SG. destruct SG as (_ & NS & _). destruct (NS _ _ A).
    + apply in_app_or in A as [A|A]; [destruct (TC _ _ _ A) as (x & Q & _); congruence|]. apply in_app_or in B as [B|B]; [destruct (TC _ _ _ B) as (x & Q & _); congruence|].
      destruct A as [A|[]], B as [B|[]]. congruence.
Qed.

Lemma poss_wait es s tr t x d h f dl ph : nexec nstate0 es s tr -> nth_error (n_tasks s) t = Some x -> n_pc x = NWaiting h f dl ph -> dl <= n_now s + d -> npossible (nlater d s) t.
Proof.
  intros X E P L. unfold npossible. cbn. rewrite E. destruct x as [c p]. cbn in P. subst p. destruct ph.
  - left. destruct (Z.leb_spec dl (n_now s + d)); [discriminate|lia].
  - right. destruct (exec_wok _ _ _ X) as [own W]. pose proof (o_task own s W t _ E) as O. cbn in O. unfold n_resume. cbn.
    assert (LT : (f < length (w_futs (n_w s)))%nat). { rewrite <- (o_len own s W). apply nth_error_Some. destruct O as [O _]. congruence. }
    destruct (nth_error (w_futs (n_w s)) f) as [[| |]|] eqn:Q; try discriminate. apply nth_error_None in Q. lia.
  - right. unfold n_resume. cbn. destruct (nth_error (w_futs (n_w s)) f) as [[| |]|]; discriminate.
Qed.
Lemma poss_cancel s t x d h f : nth_error (n_tasks s) t = Some x -> n_pc x = NCancel h f -> npossible (nlater d s) t.
Proof. intros E P. right. cbn. rewrite E. destruct x as [c p]. cbn in P. subst p. discriminate. Qed.

Lemma alive es s tr n t c : nexec nstate0 es s tr -> In (n, NCall t c) tr -> nrunning tr t ->
  ((exists h tmo, c = NReq h tmo) /\ (forall m r, ~ In (m, NSent t r) tr) /\ forall r, nstep s (NEvSent t r) <> None) \/
  (exists T, waits_from tr T t c /\ forall dt, 0 <= dt -> T + patience c <= n_now s + dt -> exists s', nstep s (NEvAdvance dt) = Some (s', []) /\ npossible s' t).
Proof.
  intros X I [_ NR]. destruct (call_task _ _ _ X _ _ _ I) as (x & E & C). pose proof (stage_exec _ _ _ X t x E) as SG. rewrite C in SG.
  assert (AD : forall dt, 0 <= dt -> nstep s (NEvAdvance dt) = Some (nlater dt s, [])) by (intros dt D; cbn; destruct (Z.leb_spec 0 dt); [reflexivity|lia]).
  destruct (n_pc x) as [|h f dl ph|h f|r] eqn:P; cbn in SG.
  - left. destruct SG as (A & B & D). split; [exact A|]. split; [exact B|]. intros r. cbn. rewrite E. destruct x as [cx px]. cbn in *. subst. destruct A as (h & tmo & ->). destruct r as [[]|]; discriminate.
  - right. destruct SG as ((T & A & B & D) & _). exists T. split; [exact A|]. intros dt D0 D1. exists (nlater dt s). split; [apply AD, D0|].
    eapply poss_wait; try eassumption. destruct c; cbn in B, D1; lia.
  - right. destruct SG as ((T & A) & _). exists T. split; [exact A|]. intros dt D0 D1. exists (nlater dt s). split; [apply AD, D0|]. eapply poss_cancel; eassumption.
  - destruct SG as [m J]. destruct (NR _ _ J).
Qed.

(** how many steps are left *)
Definition left_pc (p : npc) : nat :=
  match p with NSending | NWaiting _ _ _ PhWaiting => 3 | NWaiting _ _ _ PhExpired => 2 | NWaiting _ _ _ PhExpiring | NCancel _ _ => 1 | NDone _ => 0 end.
Definition left (s : nstate) (t : nat) : nat := match nth_error (n_tasks s) t with Some x => left_pc (n_pc x) | None => 3 end.
Lemma left_step s e s' os t : nstep s e = Some (s', os) -> (left s' t + (if nown t e then 1 else 0) <= left s t)%nat.
Proof.
  intros ST. unfold left. destruct (nth_error (n_tasks s) t) as [x|] eqn:E.
  - destruct (step_move s e s' os t x ST E) as (y & -> & _ & M). destruct M as [e p os O S R|h tmo f ph Q|r r' N|h f dl|h f dl|h f dl ph r|h f r|r|h f dl ph]; cbn; rewrite ?Nat.eqb_refl; try lia; try (rewrite O; lia); destruct ph; cbn; lia.
  - assert (nown t e = false) as ->.
    { destruct e as [dt|c|u r|m|u|u|u]; cbn in *; auto; destruct (Nat.eqb_spec u t) as [->|]; auto; rewrite E in ST; discriminate. }
    destruct (nth_error (n_tasks s') t) as [y|]; [destruct (n_pc y) as [|? ? ? []| |]; cbn; lia|lia].
Qed.
Lemma ncount_snoc p es e : ncount p (es ++ [e]) = (ncount p es + if p e then 1 else 0)%nat.
Proof. unfold ncount. rewrite filter_app, app_length. cbn. destruct (p e); reflexivity. Qed.
Lemma left_exec s0 es s tr t : nexec s0 es s tr -> (left s t + ncount (nown t) es <= left s0 t)%nat.
Proof. induction 1 as [|es s tr e s' os X IH ST]; [cbn; lia|]. rewrite ncount_snoc. pose proof (left_step s e s' os t ST). lia. Qed.
Lemma few es s tr t : nexec nstate0 es s tr -> (ncount (nown t) es <= 3)%nat.
Proof. intros X. pose proof (left_exec _ _ _ _ t X) as H. unfold left at 2 in H. cbn in H. destruct t; cbn in H; lia. Qed.

Lemma nexec_app s0 es s tr es2 s2 tr2 : nexec s0 es s tr -> nexec s es2 s2 tr2 -> nexec s0 (es ++ es2) s2 (tr ++ tr2).
Proof. intros A. induction 1 as [|es2 s2 tr2 e s' os X IH ST]; [rewrite !app_nil_r; exact A|]. rewrite !app_assoc. apply NX_snoc; assumption. Qed.

Lemma ends es s tr n t c T : nexec nstate0 es s tr -> In (n, NCall t c) tr -> nrunning tr t -> waits_from tr T t c ->
  exists es2 s2 tr2 m r, nexec s es2 s2 tr2 /\ Forall (fun e => nown t e = true \/ exists dt, e = NEvAdvance dt) es2 /\ In (m, NRet t r) tr2.
Proof.
  intros X I R W. remember (left s t) as k eqn:K. revert es s tr X I R W K. induction k as [k IH] using lt_wf_ind. intros es s tr X I R W K.
  destruct (alive _ _ _ _ _ _ X I R) as [((h & tmo & ->) & NS & _)|(T' & W' & A)]; [destruct (NS _ _ W)|].
  destruct (A (Z.max 0 (T' + patience c - n_now s)) ltac:(lia) ltac:(lia)) as (s1 & S1 & P). set (dt := Z.max _ _) in *. clearbody dt.
  assert (exists e s2 os, nown t e = true /\ nstep s1 e = Some (s2, os)) as (e & s2 & os & O & S2).
  { destruct P as [P|P]; [destruct (nstep s1 (NEvTimer t)) as [[s2 os]|] eqn:Q; [|congruence]; exists (NEvTimer t), s2, os|
                          destruct (nstep s1 (NEvResume t)) as [[s2 os]|] eqn:Q; [|congruence]; exists (NEvResume t), s2, os];
    (split; [cbn; apply Nat.eqb_refl|exact Q]). }
  assert (X1 : nexec s ([NEvAdvance dt] ++ [e]) s2 (([] ++ nstamp (n_now s) []) ++ nstamp (n_now s1) os)).
  { apply NX_snoc with (s := s1); [|exact S2]. apply (NX_snoc s [] s [] _ _ _ (NX_nil s) S1). }
  pose proof (nexec_app _ _ _ _ _ _ _ X X1) as X2. cbn [nstamp map app] in X1, X2.
  assert (LL : (left s2 t < k)%nat). { pose proof (left_step _ _ _ _ t S1) as L1. pose proof (left_step _ _ _ _ t S2) as L2. rewrite O in L2. lia. }
  assert (FA : Forall (fun e => nown t e = true \/ exists dt, e = NEvAdvance dt) [NEvAdvance dt; e]) by (constructor; [right; eauto|constructor; [left; exact O|constructor]]).
  assert (DEC : (exists r, In (NRet t r) os) \/ forall r, ~ In (NRet t r) os).
  { clear. induction os as [|o os [[r J]|J]]; [right; cbn; tauto|left; exists r; right; exact J|].
    destruct o as [| | |u r]; try (right; intros q [Q|Q]; [discriminate|exact (J _ Q)]). destruct (Nat.eq_dec u t) as [->|N]; [left; exists r; left; reflexivity|].
    right. intros q [Q|Q]; [congruence|exact (J _ Q)]. }
  destruct DEC as [[r J]|J].
  - exists [NEvAdvance dt; e], s2, (nstamp (n_now s1) os), (n_now s1), r. split; [exact X1|]. split; [exact FA|]. apply stamp_in. exact J.
  - destruct (IH (left s2 t) LL _ s2 _ X2) as (es2 & s3 & tr3 & m & r & Y1 & Y2 & Y3).
    + apply in_or_app. left. exact I.
    + split; [exists n, c; apply in_or_app; left; exact I|]. intros m r Q. apply in_app_or in Q as [Q|Q]; [exact (proj2 R _ _ Q)|]. apply in_stamp in Q as [_ Q]. exact (J _ Q).
    + apply waits_more. exact W.
    + reflexivity.
    + exists ([NEvAdvance dt; e] ++ es2), s3, (nstamp (n_now s1) os ++ tr3), m, r. split; [eapply nexec_app; eassumption|]. split; [apply Forall_app; auto|]. apply in_or_app. right. exact Y3.
Qed.

Lemma prompt_is es s tr : nprompt nstate0 es s tr -> nexec nstate0 es s tr.
Proof. induction 1; econstructor; eassumption. Qed.
Lemma in_time es s tr n t c T : nprompt nstate0 es s tr -> In (n, NCall t c) tr -> waits_from tr T t c ->
  (forall m r, In (m, NRet t r) tr -> m <= T + patience c) /\ ((forall m r, ~ In (m, NRet t r) tr) -> n_now s <= T + patience c).
Proof.
  intros PX. revert T. induction PX as [|es s tr e s' os PX IH ST PR]; intros T I W; [destruct I|].
  pose proof (prompt_is _ _ _ PX) as X. pose proof (NX_snoc _ _ _ _ _ _ _ X ST) as X'.
  assert (PP : 0 <= patience c) by (destruct c; cbn; lia).
  destruct (step_tasks s e s' os ST) as (_ & _ & NC & OC & _ & OS & _ & NN & NE).
  assert (CASES : (In (n, NCall t c) tr /\ waits_from tr T t c) \/ (T = n_now s /\ n_now s' = n_now s /\ forall m r, In (m, NRet t r) (tr ++ nstamp (n_now s) os) -> m <= n_now s)).
  { destruct (exec_told _ _ _ X) as [TC TT TR TN].
    assert (K : forall m r, In (m, NRet t r) (tr ++ nstamp (n_now s) os) -> m <= n_now s) by (intros m r J; apply in_app_or in J as [J|J]; [exact (TN _ _ J)|apply in_stamp in J as [-> _]; lia]).
    assert (CN : In (NCall t c) os -> n_now s' = n_now s) by (intros J; apply OC in J as [_ ->]; exact NE).
    destruct c as [h tmo|h tmo]; cbn in W.
    - apply in_app_or in W as [W|W].
      + left. split; [|exact W]. apply in_app_or in I as [I|I]; [exact I|]. apply in_stamp in I as [_ I]. apply OC in I as [-> ->].
        destruct (call_task _ _ _ X' (n_now s) (length (n_tasks s)) (NReq h tmo)) as (y & Y & C); [destruct (NC _ eq_refl) as [-> _]; apply in_or_app; right; left; reflexivity|].
        destruct (step_new _ _ _ _ _ _ ST (proj2 (nth_error_None _ _) (le_n _)) Y) as (c' & Q & _ & _ & _ & P). injection Q as <-.
        pose proof (stage_exec _ _ _ X' _ _ Y) as SG. rewrite P in SG. destruct SG as (_ & NS & _). destruct (NS T (Ok true)). apply in_or_app. left. exact W.
      + apply in_stamp in W as [-> W]. right. split; [reflexivity|]. split; [|exact K]. apply OS in W as ->. exact NE.
    - apply in_app_or in W as [W|W].
      + left. split; [|exact W]. apply in_app_or in I as [I|I]; [exact I|]. apply in_stamp in I as [_ I]. apply OC in I as [-> ->].
        destruct (TC _ _ _ W) as (x & Q & _). apply nth_lt in Q. lia.
      + apply in_stamp in W as [-> W]. right. auto. }
  destruct CASES as [[I0 W0]|(-> & NW & K)]; [|split; [intros m r J; apply K in J; lia|intros _; lia]].
  destruct (IH T I0 W0) as [A B].
  assert (NOT : (forall m r, ~ In (m, NRet t r) tr) -> n_now s' <= T + patience c).
  { intros N. specialize (B N). destruct e as [dt| | | | | |]; try lia. cbn in ST. destruct (Z.leb_spec 0 dt); [|discriminate]. injection ST as <- <-. cbn in *.
    destruct (Z.leb_spec (n_now s + dt) (T + patience c)); [assumption|]. exfalso.
    destruct (alive _ _ _ _ _ _ X I0) as [((h & tmo & ->) & NS & _)|(T' & W' & AA)]; [split; [eauto|exact N]|destruct (NS _ _ W0)|].
    destruct (call_task _ _ _ X _ _ _ I0) as (x & E & C). assert (T' = T) by (exact (sent_once _ _ _ X t T' T c x E C W' W0)). subst T'.
    destruct (AA (T + patience c - n_now s) ltac:(lia) ltac:(lia)) as (s1 & S1 & P). apply (PR dt (T + patience c - n_now s) t eq_refl ltac:(lia)).
    cbn in S1. destruct (0 <=? _); [|discriminate]. injection S1 as <-. exact P. }
  assert (DEC : (exists m r, In (m, NRet t r) tr) \/ forall m r, ~ In (m, NRet t r) tr).
  { destruct (call_task _ _ _ X _ _ _ I0) as (x & E & C). pose proof (stage_exec _ _ _ X t x E) as SG. destruct (n_pc x) as [|h f dl ph|h f|r]; cbn in SG; [right; tauto|right; tauto|right; tauto|left; destruct SG; eauto]. }
  split.
  - intros m r J. apply in_app_or in J as [J|J]; [eauto|]. apply in_stamp in J as [-> J]. destruct DEC as [(m0 & r0 & D)|D]; [|specialize (NOT D); lia].
    destruct (ret_done _ _ _ X _ _ _ D) as (x & E & P). exfalso. destruct (step_move _ _ _ _ _ _ ST E) as (y & Y & _ & M). rewrite P in M. inversion M; subst; eauto.
    match goal with H : forall r, ~ In (NRet t r) os |- _ => exact (H _ J) end.
  - intros N. apply NOT. intros m r J. apply (N m r). apply in_or_app. auto.
Qed.

(** checking that a run is prompt *)
Definition nidle (s : nstate) (dt : Z) : bool :=
  forallb (fun x => match n_pc x with
    | NSending | NDone _ => true
    | NWaiting _ f dl PhWaiting => (n_now s + dt <=? dl) && match nth_error (w_futs (n_w s)) f with Some FPending => true | _ => false end
    | _ => false
    end) (n_tasks s).
Fixpoint nprompt_of (s : nstate) (es : list nevent) : option (nstate * ntrace) :=
  match es with
  | [] => Some (s, [])
  | e :: es' => if match e with NEvAdvance dt => nidle s dt | _ => true end then
      match nstep s e with
      | Some (s', os) => match nprompt_of s' es' with Some (s'', tr) => Some (s'', nstamp (n_now s) os ++ tr) | None => None end
      | None => None
      end else None
  end.
Lemma nidle_ok s dt d t : nidle s dt = true -> 0 <= d < dt -> ~ npossible (nlater d s) t.
Proof.
  intros I L P. unfold npossible in P. cbn in P. destruct (nth_error (n_tasks s) t) as [[c p]|] eqn:N; [|destruct P as [P|P]; elim P; reflexivity].
  pose proof (proj1 (forallb_forall _ _) I _ (nth_error_In _ _ N)) as Q. cbn in Q.
  destruct p as [|h f dl []|h f|r]; try discriminate; try (destruct P as [P|P]; elim P; reflexivity).
  apply andb_prop in Q as [Q1 Q2]. unfold n_resume in P. cbn in P. destruct (nth_error (w_futs (n_w s)) f) as [[]|]; try discriminate. destruct P as [P|P]; [|elim P; reflexivity].
  destruct (Z.leb_spec dl (n_now s + d)); [lia|]. elim P. reflexivity.
Qed.
Lemma nprompt_app s0 es1 s1 tr1 es2 s2 tr2 : nprompt s0 es1 s1 tr1 -> nprompt s1 es2 s2 tr2 -> nprompt s0 (es1 ++ es2) s2 (tr1 ++ tr2).
Proof. intros A B. induction B as [|es s tr e s' os B IH E Q]; [rewrite !app_nil_r; exact A|]. rewrite !app_assoc. eapply NR_snoc; eassumption. Qed.
Lemma nprompt_ok es : forall s s' tr, nprompt_of s es = Some (s', tr) -> nprompt s es s' tr.
Proof.
  induction es as [|e es IH]; intros s s' tr E; cbn [nprompt_of] in E; [injection E as <- <-; constructor|].
  destruct (match e with NEvAdvance dt => nidle s dt | _ => true end) eqn:I; [|discriminate].
  destruct (nstep s e) as [[s1 os]|] eqn:S; [|discriminate]. destruct (nprompt_of s1 es) as [[s2 tr2]|] eqn:R; [|discriminate]. injection E as <- <-.
  change (e :: es) with ([e] ++ es). eapply nprompt_app; [|exact (IH _ _ _ R)].
  refine (NR_snoc s [] s [] e s1 os (NR_nil s) S _). intros dt d t -> L. exact (nidle_ok _ _ _ _ I L).
Qed.
