(** No call is forgotten: every running call can take a step once its time outs have passed, takes few steps, and ends in time
    when the event loop is prompt. *)
From Coq Require Import String ZArith List Bool Lia ZifyBool ZifyNat.
From Verif Require Import Py Schema Registry Codec Waiter Conn SpecConn SpecLive ConnLemmas ConnAck ConnInv ConnCases ConnProps ConnCalm ConnWait ConnReply ConnFirst ConnCut GatewayAnswer.
Import ListNotations.
Open Scope list_scope.
Open Scope string_scope.
Open Scope list_scope.
Open Scope Z_scope.

(** ** the allowance *)
Lemma share_pos t o : 0 <= share t o.
Proof. destruct o; cbn [share]; try lia; destruct (Nat.eqb _ _); try lia. destruct (sending c); lia. Qed.
Lemma allowance_app a b t : allowance (a ++ b) t = allowance a t + allowance b t.
Proof. unfold allowance. induction a as [|x a IH]; [reflexivity|]. cbn [app fold_right]. rewrite IH. lia. Qed.
Lemma allowance_pos a t : 0 <= allowance a t.
Proof. unfold allowance. induction a as [|x a IH]; cbn [fold_right]; [lia|]. pose proof (share_pos t (snd x)). lia. Qed.
Lemma allowance_in n o a t : In (n, o) a -> share t o <= allowance a t.
Proof.
  intros J. apply in_split in J as (b & c & ->). rewrite allowance_app. pose proof (allowance_pos b t). pose proof (allowance_pos c t). cbn. unfold allowance in *. lia.
Qed.

(** ** waits and their deadlines *)
Definition wdl (s : conn) : Prop := forall t c h f dl ph, nth_error (c_tasks s) t = Some (mkT c (PWait h f dl ph)) -> dl <= c_now s + reply_timeout c.
Lemma wdl_upd s s' u x : wdl s -> c_now s <= c_now s' -> c_tasks s' = upd u x (c_tasks s) ->
  (forall h f dl ph, t_pc x = PWait h f dl ph -> dl <= c_now s' + reply_timeout (t_call x)) -> wdl s'.
Proof.
  intros W L E Q t c h f dl ph N. rewrite E, nth_upd in N. destruct (Nat.eqb_spec u t) as [->|].
  - destruct (nth_error (c_tasks s) t); [injection N as ->|discriminate]. exact (Q _ _ _ _ eq_refl).
  - specialize (W _ _ _ _ _ _ N). lia.
Qed.
Lemma wdl_new s c s' x : wdl s -> c_now s' = c_now s -> c_tasks s' = upd (length (c_tasks s)) x (c_tasks s ++ [c]) ->
  (forall h f dl ph, t_pc x = PWait h f dl ph -> dl <= c_now s' + reply_timeout (t_call x)) -> wdl s'.
Proof.
  intros W L E Q t c' h f dl ph N. rewrite E, nth_upd in N. destruct (Nat.eqb_spec (length (c_tasks s)) t) as [<-|NE]; rewrite nth_snoc in N.
  - rewrite Nat.eqb_refl in N. injection N as ->. exact (Q _ _ _ _ eq_refl).
  - destruct (Nat.eqb_spec t (length (c_tasks s))); [congruence|]. specialize (W _ _ _ _ _ _ N). lia.
Qed.
Lemma step_wdl s tr e s' os : good s tr -> wdl s -> step s e = Some (s', os) -> wdl s'.
Proof.
  intros G W ST. destruct (good_case _ _ _ _ _ G ST); subst; try exact W.
  1: intros t c h f dl ph N; specialize (W _ _ _ _ _ _ N); cbn; lia.
  1-4: (eapply wdl_new; [exact W|reflexivity|reflexivity|]; cbn; intros; try discriminate; try (match goal with H : PWait _ _ _ _ = _ |- _ => injection H as <- <- <- <- end; lia)).
  1: destruct (packet_frame_of _ _ _ _ _ G H0 H1) as (_ & [T _ _ _ E] & _); intros t c h f dl ph N; rewrite E in N; specialize (W _ _ _ _ _ _ N); lia.
  all: eapply wdl_upd; [exact W|cbn; lia|reflexivity|]; cbn; intros; try discriminate.
  all: try (match goal with H : PWait _ _ _ _ = _ |- _ => injection H as <- <- <- <- end; try lia; match goal with H : nth_error _ _ = Some _ |- _ => exact (W _ _ _ _ _ _ H) end).
Qed.
Lemma exec_wdl es s tr : exec conn0 es s tr -> wdl s.
Proof. induction 1 as [|es s tr e s' os X IH ST]; [intros [] c h f dl ph N; discriminate|]. eapply step_wdl; [exact (proj1 (exec_good _ _ _ X))|exact IH|exact ST]. Qed.

(** a call whose task is done has returned *)
Definition told (s : conn) (tr : trace) : Prop := forall t c r, nth_error (c_tasks s) t = Some (mkT c (PDone r)) -> exists n, In (n, ORet t r) tr.
Lemma told_old s tr y : told s tr -> told s (tr ++ y).
Proof. intros T t c r N. destruct (T _ _ _ N) as (n & J). exists n. apply in_or_app. left. exact J. Qed.
Lemma told_upd s tr s' u x y : told s tr -> c_tasks s' = upd u x (c_tasks s) -> (forall r, t_pc x = PDone r -> exists n, In (n, ORet u r) y) -> told s' (tr ++ y).
Proof.
  intros T E Q t c r N. rewrite E, nth_upd in N. destruct (Nat.eqb_spec u t) as [->|].
  - destruct (nth_error (c_tasks s) t); [injection N as ->|discriminate]. destruct (Q _ eq_refl) as (n & J). exists n. apply in_or_app. right. exact J.
  - destruct (T _ _ _ N) as (m & J). exists m. apply in_or_app. left. exact J.
Qed.
Lemma told_new s tr s' c x y : told s tr -> c_tasks s' = upd (length (c_tasks s)) x (c_tasks s ++ [c]) -> (forall r, t_pc x = PDone r -> exists n, In (n, ORet (length (c_tasks s)) r) y) -> told s' (tr ++ y).
Proof.
  intros T E Q t c' r N. rewrite E, nth_upd in N. destruct (Nat.eqb_spec (length (c_tasks s)) t) as [<-|NE]; rewrite nth_snoc in N.
  - rewrite Nat.eqb_refl in N. injection N as ->. destruct (Q _ eq_refl) as (n & J). exists n. apply in_or_app. right. exact J.
  - destruct (Nat.eqb_spec t (length (c_tasks s))); [congruence|]. destruct (T _ _ _ N) as (m & J). exists m. apply in_or_app. left. exact J.
Qed.
Lemma step_told s tr e s' os : good s tr -> told s tr -> step s e = Some (s', os) -> told s' (tr ++ stamp (c_now s) os).
Proof.
  intros G T ST. destruct (good_case _ _ _ _ _ G ST); subst; try exact (told_old _ _ _ T).
  1-4: (eapply told_new; [exact T|reflexivity|]; cbn; intros r0 R; try discriminate; injection R as <-; exists (c_now s)).
  1: right; left; reflexivity.
  1: right; apply in_map; apply in_or_app; right; left; reflexivity.
  1: destruct (packet_frame_of _ _ _ _ _ G H0 H1) as (_ & [_ _ _ _ E] & _); intros t c r N; rewrite E in N; exact (told_old _ _ _ T _ _ _ N).
  all: eapply told_upd; [exact T|reflexivity|]; cbn; intros r0 R; try discriminate; injection R as <-; exists (c_now s); left; reflexivity.
Qed.
Lemma exec_told es s tr : exec conn0 es s tr -> told s tr.
Proof. induction 1 as [|es s tr e s' os X IH ST]; [intros [] c r N; discriminate|]. eapply step_told; [exact (proj1 (exec_good _ _ _ X))|exact IH|exact ST]. Qed.

(** ** a running call is never stuck *)
Lemma slot_fut s tr t c p h f : winv (c_w s) (c_tasks s) tr -> nth_error (c_tasks s) t = Some (mkT c p) -> slot (mkT c p) = Some (h, f) -> exists x, nth_error (w_futs (c_w s)) f = Some x.
Proof.
  intros W N S. destruct (wi_hf _ _ _ W) as (hf & L & _ & Q & _). pose proof (nth_lt _ _ _ (Q _ _ _ _ N S)) as LT. rewrite L in LT.
  destruct (nth_error (w_futs (c_w s)) f) eqn:E; [eauto|]. apply nth_error_None in E. lia.
Qed.
(** the deadline of a waiting call *)
Definition deadline (p : pc) : option Z := match p with PAck _ _ dl PhWaiting _ | PWait _ _ dl PhWaiting => Some dl | _ => None end.
Lemma can_step s tr t c p : good s tr -> winv (c_w s) (c_tasks s) tr -> nth_error (c_tasks s) t = Some (mkT c p) -> (forall r, p <> PDone r) ->
  (forall dl, deadline p = Some dl -> dl <= c_now s) -> possible s t.
Proof.
  intros (IA & _) W N ND D. unfold possible. cbn [step]. rewrite N. destruct p as [aid sq dl ph ses|h f dl ph|h f|r]; cbn [t_pc resume]; [| | |elim (ND r eq_refl)].
  - destruct (at_own _ _ _ _ _ _ _ _ _ _ _ (ia_task _ _ _ _ _ IA _ _ _ _ _ _ _ N)) as (n & k & [st d b] & _ & _ & E & _). destruct ph.
    + rewrite E. specialize (D _ eq_refl). destruct b; [right; destruct st; discriminate|left]. cbn [a_set negb]. destruct (Z.leb_spec dl (c_now s)); [discriminate|lia].
    + right. discriminate.
    + right. destruct (dmem _ _ _); discriminate.
  - destruct ph.
    + left. specialize (D _ eq_refl). destruct (Z.leb_spec dl (c_now s)); [discriminate|lia].
    + right. destruct (slot_fut _ _ _ _ _ h f W N eq_refl) as ([] & ->); discriminate.
    + right. destruct (slot_fut _ _ _ _ _ h f W N eq_refl) as ([] & ->); discriminate.
  - right. discriminate.
Qed.
Lemma running_task es s tr t : exec conn0 es s tr -> running tr t -> exists c p n, nth_error (c_tasks s) t = Some (mkT c p) /\ In (n, OCall t c) tr /\ forall r, p <> PDone r.
Proof.
  intros X ((n & c & J) & NR). destruct (called_task _ _ _ _ _ _ X J) as (p & N). exists c, p, n. split; [exact N|]. split; [exact J|]. intros r ->. destruct (exec_told _ _ _ X _ _ _ N) as (m & Q). exact (NR _ _ Q).
Qed.
Lemma not_running_done es s tr t c p : exec conn0 es s tr -> nth_error (c_tasks s) t = Some (mkT c p) -> (forall r, p <> PDone r) -> running tr t.
Proof.
  intros X N ND. destruct (exec_good _ _ _ X) as [(IA & _) _]. destruct (ia_born _ _ _ _ _ IA _ _ N) as (n & k & (a & b & -> & _)). split; [exists n, c; apply in_or_app; right; left; reflexivity|].
  intros m r J. destruct (proj2 (exec_owners _ _ _ X) _ _ _ J) as (c' & E). rewrite N in E. injection E as _ E. exact (ND _ E).
Qed.
Lemma dl_bound es s tr t c p dl : exec conn0 es s tr -> nth_error (c_tasks s) t = Some (mkT c p) -> deadline p = Some dl -> dl <= c_now s + allowance tr t.
Proof.
  intros X N D. destruct (exec_good _ _ _ X) as [(IA & _) _]. destruct (ia_born _ _ _ _ _ IA _ _ N) as (n & k & (a & b & E & _)). cbn [t_call] in E.
  assert (JC : In (n, OCall t c) tr) by (rewrite E; apply in_or_app; right; left; reflexivity). clear a b E.
  pose proof (allowance_in _ _ _ t JC) as AC. cbn [share] in AC. rewrite Nat.eqb_refl in AC. pose proof (proj1 (exec_ordered _ _ _ X)) as O.
  destruct p as [aid sq dl' ph ses|h f dl' ph|h f|r]; try discriminate; destruct ph; try discriminate; injection D as ->.
  - pose proof (ia_task _ _ _ _ _ IA _ _ _ _ _ _ _ N) as AT. pose proof (at_send _ _ _ _ _ _ _ _ _ _ _ AT) as S. rewrite S in AC.
    destruct (at_dl _ _ _ _ _ _ _ _ _ _ _ AT) as [(n' & k' & c' & (a & b & E & _) & -> & _)|(a & m & d & b & E & -> & _)].
    + assert (J : In (n', OCall t c') tr) by (rewrite E; apply in_or_app; right; left; reflexivity). destruct (called_task _ _ _ _ _ _ X J) as (p' & N'). rewrite N in N'. injection N' as <- _.
      specialize (O _ J). cbn [fst] in O. lia.
    + assert (J : In (m, ORearm t d) tr) by (rewrite E; apply in_or_app; right; left; reflexivity). pose proof (allowance_in _ _ _ t J) as AR. cbn [share] in AR. rewrite Nat.eqb_refl in AR.
      specialize (O _ J). cbn [fst] in O. lia.
  - pose proof (exec_wdl _ _ _ X _ _ _ _ _ _ N). destruct (sending c); lia.
Qed.
Lemma later_ok s tr d : good s tr -> 0 <= d -> good (later d s) tr.
Proof.
  intros G L. destruct (step_good s (EvAdvance d) (later d s) [] tr G) as [G' _]; [cbn [step]; destruct (Z.leb_spec 0 d); [reflexivity|lia]|]. cbn in G'. rewrite app_nil_r in G'. exact G'.
Qed.
Lemma alive es s tr t dt : exec conn0 es s tr -> running tr t -> allowance tr t <= dt -> exists s', step s (EvAdvance dt) = Some (s', []) /\ possible s' t.
Proof.
  intros X R L. destruct (running_task _ _ _ _ X R) as (c & p & n & N & J & ND). pose proof (allowance_pos tr t) as AP. exists (later dt s). split; [cbn [step]; destruct (Z.leb_spec 0 dt); [reflexivity|lia]|].
  eapply (can_step _ tr); [apply later_ok; [exact (proj1 (exec_good _ _ _ X))|lia]|exact (exec_winv _ _ _ X)|exact N|exact ND|].
  intros dl D. pose proof (dl_bound _ _ _ _ _ _ _ X N D). cbn. lia.
Qed.

(** ** a call takes few steps *)
Definition mu_pc (acks : list ack) (p : pc) : nat :=
  match p with
  | PAck aid _ _ PhWaiting _ => match nth_error acks aid with Some (mkAck SQueued _ true) => 7 | _ => 6 end
  | PAck _ _ _ PhExpired _ => 5 | PAck _ _ _ PhExpiring _ => 4
  | PWait _ _ _ PhWaiting => 3 | PWait _ _ _ PhExpired => 2 | PWait _ _ _ PhExpiring => 1
  | PCancel _ _ => 1 | PDone _ => 0
  end.
Definition mu (s : conn) (t : nat) : nat := match nth_error (c_tasks s) t with Some x => mu_pc (c_acks s) (t_pc x) | None => 6 end.
Lemma mu_max s t : (mu s t <= 7)%nat.
Proof. unfold mu. destruct (nth_error _ _) as [[c []]|]; cbn; try (destruct ph); try lia. destruct (nth_error _ _) as [[[] d []]|]; lia. Qed.
Lemma mu_upd s s' u x t : c_tasks s' = upd u x (c_tasks s) -> c_acks s' = c_acks s -> (u < length (c_tasks s))%nat -> mu s' t = if Nat.eqb u t then mu_pc (c_acks s) (t_pc x) else mu s t.
Proof.
  intros E A L. unfold mu. rewrite E, A, nth_upd. destruct (Nat.eqb_spec u t) as [->|]; [|reflexivity]. destruct (nth_error (c_tasks s) t) eqn:N; [reflexivity|]. apply nth_error_None in N. lia.
Qed.
Lemma mu_new s s' y x t acks' : c_tasks s' = upd (length (c_tasks s)) x (c_tasks s ++ [y]) -> c_acks s' = c_acks s ++ acks' ->
  (forall t x, nth_error (c_tasks s) t = Some x -> match t_pc x with PAck aid _ _ _ _ => (aid < length (c_acks s))%nat | _ => True end) ->
  mu s' t = if Nat.eqb (length (c_tasks s)) t then mu_pc (c_acks s') (t_pc x) else mu s t.
Proof.
  intros E A V. unfold mu. rewrite E, nth_upd. destruct (Nat.eqb_spec (length (c_tasks s)) t) as [<-|NE]; rewrite nth_snoc; [rewrite Nat.eqb_refl; reflexivity|].
  destruct (Nat.eqb_spec t (length (c_tasks s))); [congruence|]. destruct (nth_error (c_tasks s) t) as [[c p]|] eqn:N; [|reflexivity]. specialize (V _ _ N). cbn [t_pc] in *.
  destruct p as [aid sq dl ph ses|h f dl ph|h f|r]; try reflexivity. cbn [mu_pc]. rewrite A, nth_error_app1 by exact V. reflexivity.
Qed.

Lemma mu_packet acks acks' i a p : (acks' = acks \/ acks' = upd i a acks) -> (mu_pc acks' p <= S (mu_pc acks p))%nat.
Proof.
  intros E. destruct p as [aid sq dl [] ses|h f dl []|h f|r]; cbn; try lia. destruct (nth_error acks' aid) as [[[] d []]|], (nth_error acks aid) as [[[] d' []]|]; lia.
Qed.
Definition weight (t : nat) (e : event) : nat := if own t e then 1 else 0.
Lemma step_mu s tr e s' os t : good s tr -> step s e = Some (s', os) -> (mu s' t + weight t e <= mu s t + (if is_packet e then 1 else 0))%nat.
Proof.
  intros G ST. pose proof G as (IA & _).
  assert (V : forall t x, nth_error (c_tasks s) t = Some x -> match t_pc x with PAck aid _ _ _ _ => (aid < length (c_acks s))%nat | _ => True end).
  { intros u [c p] N. destruct p as [aid sq dl ph ses| | |]; try exact Logic.I. destruct (at_own _ _ _ _ _ _ _ _ _ _ _ (ia_task _ _ _ _ _ IA _ _ _ _ _ _ _ N)) as (n & k & a & _ & _ & E & _). exact (nth_lt _ _ _ E). }
  assert (NEW : forall x y acks' k, c_tasks k = upd (length (c_tasks s)) x (c_tasks s ++ [y]) -> c_acks k = c_acks s ++ acks' -> (mu_pc (c_acks k) (t_pc x) <= 6)%nat -> (mu k t <= mu s t)%nat).
  { intros x y acks' k E A L. rewrite (mu_new s k y x t acks' E A V). destruct (Nat.eqb_spec (length (c_tasks s)) t) as [<-|]; [|lia]. unfold mu. rewrite (proj2 (nth_error_None _ _)) by lia. exact L. }
  assert (MOVE : forall u x c p k, nth_error (c_tasks s) u = Some (mkT c p) -> c_tasks k = upd u x (c_tasks s) -> c_acks k = c_acks s -> (mu_pc (c_acks s) (t_pc x) < mu_pc (c_acks s) p)%nat -> (mu k t + (if Nat.eqb u t then 1 else 0) <= mu s t)%nat).
  { intros u x c p k N E A L. rewrite (mu_upd s k u x t E A (nth_lt _ _ _ N)). destruct (Nat.eqb_spec u t) as [<-|]; [|lia]. unfold mu. rewrite N. cbn [t_pc]. lia. }
  assert (WS : forall f tmo w ph w', wait_start f tmo w = (ph, w') -> forall h dl, (mu_pc (c_acks s) (PWait h f dl ph) <= 3)%nat) by (intros f tmo w ph w' _ h dl; destruct ph; cbn; lia).
  destruct (good_case _ _ _ _ _ G ST); subst; unfold weight; cbn [own is_packet].
  - unfold mu; cbn; lia.
  - unfold mu; cbn; lia.
  - rewrite !Nat.add_0_r. apply (NEW (mkT c (PDone (RExc e))) (mkT c (PDone (RExc EUnmodelled))) []); [reflexivity|cbn; rewrite app_nil_r; reflexivity|cbn; lia].
  - rewrite !Nat.add_0_r. eapply (NEW _ _ []); [reflexivity|cbn; rewrite app_nil_r; reflexivity|cbn; lia].
  - rewrite !Nat.add_0_r. eapply (NEW _ _ [ack0]); [reflexivity|reflexivity|]. cbn [c_acks set_task add_ack reset_ka s_num set_seq set_w s_new t_pc mu_pc]. destruct (0 <? _); [|lia].
    rewrite nth_error_app2, Nat.sub_diag by lia. cbn. lia.
  - rewrite !Nat.add_0_r. eapply (NEW _ _ []); [reflexivity|cbn; rewrite app_nil_r; reflexivity|]. specialize (WS _ _ _ _ _ H0 h (c_now s + tmo)). cbn. cbn in WS. destruct ph; lia.
  - destruct (packet_frame_of _ _ _ _ _ G H0 H1) as (AE & [_ _ _ _ E] & _). unfold mu. rewrite E. destruct (nth_error (c_tasks s) t) as [x|]; [|lia].
    rewrite Nat.add_0_r, Nat.add_1_r. destruct AE; [eapply (mu_packet _ _ 0%nat ack0)|eapply mu_packet; right; eassumption|eapply mu_packet; right; eassumption]. left. assumption.
  - rewrite Nat.add_0_r. eapply MOVE; [exact H|reflexivity|reflexivity|]. cbn. rewrite H0. destruct a as [[] d []]; cbn; lia.
  - rewrite Nat.add_0_r. eapply MOVE; [exact H|reflexivity|reflexivity|]. cbn. lia.
  - rewrite Nat.add_0_r. unfold mu. cbn [c_tasks c_acks set_task set_ack]. rewrite nth_upd. destruct (Nat.eqb_spec t0 t) as [<-|NE].
    + rewrite H. cbn [t_pc mu_pc]. rewrite nth_upd, Nat.eqb_refl, H0. lia.
    + rewrite Nat.add_0_r. destruct (nth_error (c_tasks s) t) as [[c' p]|] eqn:N; [|lia]. cbn [t_pc]. destruct p as [aid' sq' dl' ph' ses'|h f dl' ph'|h f|r]; try (cbn; lia).
      enough (aid <> aid') by (destruct ph'; cbn [mu_pc]; rewrite ?nth_upd_other by assumption; lia). intros <-. elim NE. exact (ia_inj _ _ _ _ _ IA _ _ _ _ _ _ _ _ _ _ _ _ _ H N).
  - rewrite Nat.add_0_r. eapply MOVE; [exact H|reflexivity|reflexivity|]. cbn. rewrite H0. destruct st; lia.
  - rewrite Nat.add_0_r. eapply MOVE; [exact H|reflexivity|reflexivity|]. specialize (WS _ _ _ _ _ H2 h (c_now s + tmo)). eapply Nat.le_lt_trans; [exact WS|]. cbn [mu_pc]. rewrite H0. destruct st; lia.
  - rewrite Nat.add_0_r. eapply MOVE; [exact H|reflexivity|reflexivity|]. cbn. lia.
  - rewrite Nat.add_0_r. eapply MOVE; [exact H|reflexivity|reflexivity|]. cbn. lia.
  - rewrite Nat.add_0_r. eapply MOVE; [exact H|reflexivity|reflexivity|]. specialize (WS _ _ _ _ _ H1 h (c_now s + tmo)). eapply Nat.le_lt_trans; [exact WS|]. cbn [mu_pc]. lia.
  - rewrite Nat.add_0_r. eapply MOVE; [exact H|reflexivity|reflexivity|]. cbn. lia.
  - rewrite Nat.add_0_r. eapply MOVE; [exact H|reflexivity|reflexivity|]. cbn. destruct ph; lia.
  - rewrite Nat.add_0_r. eapply MOVE; [exact H|reflexivity|reflexivity|]. cbn. destruct ph; lia.
  - rewrite Nat.add_0_r. eapply MOVE; [exact H|reflexivity|reflexivity|]. cbn. lia.
  - rewrite Nat.add_0_r. eapply MOVE; [exact H|reflexivity|reflexivity|]. cbn. lia.
  - rewrite Nat.add_0_r. eapply MOVE; [exact H|reflexivity|reflexivity|]. cbn. lia.
  - rewrite !Nat.add_0_r. unfold mu. cbn [c_tasks c_acks set_task]. rewrite nth_upd. destruct (Nat.eqb_spec t0 t) as [<-|]; [|lia]. rewrite H. cbn. lia.
  - rewrite !Nat.add_0_r. unfold mu. cbn [c_tasks c_acks set_task set_w]. rewrite nth_upd. destruct (Nat.eqb_spec t0 t) as [<-|]; [|lia]. rewrite H. cbn. destruct ph; lia.
  - unfold mu; cbn; lia.
Qed.
Lemma count_snoc p es e : count p (es ++ [e]) = (count p es + if p e then 1 else 0)%nat.
Proof. unfold count. rewrite filter_app, app_length. cbn. destruct (p e); reflexivity. Qed.
Lemma few_mu es1 s1 tr1 es2 s2 tr2 t : exec conn0 es1 s1 tr1 -> exec s1 es2 s2 tr2 -> (mu s2 t + count (own t) es2 <= mu s1 t + count is_packet es2)%nat.
Proof.
  intros X1. induction 1 as [|es s tr e s' os X IH ST]; [cbn; lia|]. rewrite !count_snoc.
  pose proof (step_mu _ _ _ _ _ t (proj1 (exec_good _ _ _ (exec_app _ _ _ _ _ _ _ X1 X))) ST) as M. unfold weight in M. lia.
Qed.
Lemma few es1 s1 tr1 es2 s2 tr2 t : exec conn0 es1 s1 tr1 -> exec s1 es2 s2 tr2 -> (count (own t) es2 <= 7 + count is_packet es2)%nat.
Proof. intros X1 X2. pose proof (few_mu _ _ _ _ _ _ t X1 X2). pose proof (mu_max s1 t). lia. Qed.

(** ** every running call can be brought to its end by its own steps *)
Lemma ends es s tr t : exec conn0 es s tr -> running tr t ->
  exists es2 s2 tr2 n r, exec s es2 s2 tr2 /\ Forall (fun e => own t e = true \/ exists dt, e = EvAdvance dt) es2 /\ In (n, ORet t r) tr2.
Proof.
  remember (mu s t) as k eqn:K. revert es s tr K. induction k as [k IH] using (well_founded_induction lt_wf). intros es s tr -> X R.
  destruct (alive _ _ _ _ (allowance tr t) X R ltac:(lia)) as (s1 & S1 & P). pose proof (X_snoc _ _ _ _ _ _ _ X S1) as X1. cbn in X1. rewrite app_nil_r in X1.
  assert (Q : exists e s2 os, own t e = true /\ step s1 e = Some (s2, os)).
  { destruct P as [P|P]; [exists (EvTimer t)|exists (EvResume t)]; destruct (step s1 _) as [[s2 os]|] eqn:E; try (elim P; reflexivity); exists s2, os; (split; [apply Nat.eqb_refl|first [reflexivity|assumption]]). }
  destruct Q as (e & s2 & os & O & S2). pose proof (X_snoc _ _ _ _ _ _ _ X1 S2) as X2.
  pose proof (step_mu _ _ _ _ _ t (proj1 (exec_good _ _ _ X)) S1) as M1. pose proof (step_mu _ _ _ _ _ t (proj1 (exec_good _ _ _ X1)) S2) as M2.
  unfold weight in M1, M2. rewrite O in M2. cbn [own is_packet] in M1. assert (PK : is_packet e = false) by (destruct e; try discriminate O; reflexivity). rewrite PK in M2.
  assert (X12 : exec s ([EvAdvance (allowance tr t)] ++ [e]) s2 ([] ++ stamp (c_now s1) os)).
  { exact (exec_app s [EvAdvance (allowance tr t)] s1 [] [e] s2 _ (X_snoc s [] s [] _ s1 [] (X_nil s) S1) (X_snoc s1 [] s1 [] e s2 os (X_nil s1) S2)). }
  assert (F12 : Forall (fun e => own t e = true \/ exists dt, e = EvAdvance dt) [EvAdvance (allowance tr t); e]) by (repeat constructor; eauto).
  assert (RD : running (tr ++ stamp (c_now s1) os) t \/ exists n r, In (n, ORet t r) (stamp (c_now s1) os)).
  { destruct R as ((n & c & J) & NR). destruct (called_task _ _ _ n t c X2) as (p & N); [apply in_or_app; left; exact J|]. destruct p as [| | |r]; try (left; eapply not_running_done; [exact X2|exact N|discriminate]).
    right. destruct (exec_told _ _ _ X2 _ _ _ N) as (m & Q). apply in_app_or in Q as [Q|Q]; [elim (NR _ _ Q)|eauto]. }
  destruct RD as [RR|(n & r & J)].
  - destruct (IH (mu s2 t) ltac:(lia) _ _ _ eq_refl X2 RR) as (es3 & s3 & tr3 & n & r & X3 & F3 & J). exists (([EvAdvance (allowance tr t)] ++ [e]) ++ es3), s3, (([] ++ stamp (c_now s1) os) ++ tr3), n, r.
    split; [eapply exec_app; eassumption|]. split; [apply Forall_app; split; assumption|]. apply in_or_app. right. exact J.
  - exists ([EvAdvance (allowance tr t)] ++ [e]), s2, ([] ++ stamp (c_now s1) os), n, r. split; [exact X12|]. split; [exact F12|exact J].
Qed.

(** ** prompt event loops *)
Lemma prompt_run s0 es s tr : prompt_exec s0 es s tr -> exec s0 es s tr.
Proof. induction 1; econstructor; eassumption. Qed.
(** what is left of the allowance [k] of a call *)
Definition meets (now : Z) (c : call) (p : pc) (k : Z) : Prop :=
  match p with
  | PAck _ _ dl _ _ => Z.max now dl + Z.max 0 (reply_timeout c) <= k
  | PWait _ _ dl _ => Z.max now dl <= k
  | PCancel _ _ => now <= k
  | PDone _ => True
  end.
Lemma meets_now now c p k : meets now c p k -> (forall r, p <> PDone r) -> now <= k.
Proof. intros M ND. destruct p; cbn in M; try lia. elim (ND _ eq_refl). Qed.
Lemma meets_more now c p k k' : k <= k' -> meets now c p k -> meets now c p k'.
Proof. intros L M. destruct p; cbn in *; try lia. Qed.
Definition pinv (s : conn) (tr : trace) : Prop :=
  (forall t c p n, nth_error (c_tasks s) t = Some (mkT c p) -> In (n, OCall t c) tr -> meets (c_now s) c p (n + allowance tr t)) /\
  (forall t c n m r, In (m, ORet t r) tr -> In (n, OCall t c) tr -> m <= n + allowance tr t).
Lemma pinv_same s tr s' os : pinv s tr -> c_now s' = c_now s -> c_tasks s' = c_tasks s -> (forall o, In o os -> match o with OCall _ _ | ORet _ _ => False | _ => True end) -> pinv s' (tr ++ stamp (c_now s) os).
Proof.
  intros [P1 P2] T K Q.
  assert (OLD : forall n o, In (n, o) (tr ++ stamp (c_now s) os) -> match o with OCall _ _ | ORet _ _ => True | _ => False end -> In (n, o) tr).
  { intros n o J C. apply in_app_or in J as [J|J]; [exact J|]. apply in_map_iff in J as (o' & E & J). injection E as _ ->. specialize (Q _ J). destruct o; contradiction. }
  split.
  - intros t c p n N J. rewrite T. rewrite K in N. apply OLD in J; [|exact Logic.I]. eapply meets_more; [|exact (P1 _ _ _ _ N J)]. rewrite allowance_app. pose proof (allowance_pos (stamp (c_now s) os) t). lia.
  - intros t c n m r J1 J2. apply OLD in J1; [|exact Logic.I]. apply OLD in J2; [|exact Logic.I]. specialize (P2 _ _ _ _ _ J1 J2). rewrite allowance_app. pose proof (allowance_pos (stamp (c_now s) os) t). lia.
Qed.
Lemma pinv_move s tr s' os u c p p' : pinv s tr -> (forall n t d, In (n, OCall t d) tr -> exists q, nth_error (c_tasks s) t = Some (mkT d q)) ->
  nth_error (c_tasks s) u = Some (mkT c p) -> c_now s' = c_now s -> c_tasks s' = upd u (mkT c p') (c_tasks s) -> (forall r, p <> PDone r) ->
  (forall k, meets (c_now s) c p k -> meets (c_now s) c p' (k + allowance (stamp (c_now s) os) u)) -> (forall o, In o os -> match o with OCall _ _ => False | ORet v _ => v = u | _ => True end) ->
  pinv s' (tr ++ stamp (c_now s) os).
Proof.
  intros [P1 P2] CT NU T K ND M Q.
  assert (OLD : forall n t d, In (n, OCall t d) (tr ++ stamp (c_now s) os) -> In (n, OCall t d) tr).
  { intros n t d J. apply in_app_or in J as [J|J]; [exact J|]. apply in_map_iff in J as (o' & E & J). injection E as _ ->. elim (Q _ J). }
  split.
  - intros t d q n N J. rewrite T. rewrite K, nth_upd in N. apply OLD in J. rewrite allowance_app. destruct (Nat.eqb_spec u t) as [<-|].
    + rewrite NU in N. injection N as <- <-. rewrite Z.add_assoc. apply M. exact (P1 _ _ _ _ NU J).
    + eapply meets_more; [|exact (P1 _ _ _ _ N J)]. pose proof (allowance_pos (stamp (c_now s) os) t). lia.
  - intros t d n m r J1 J2. apply OLD in J2. rewrite allowance_app. pose proof (allowance_pos (stamp (c_now s) os) t) as AP. apply in_app_or in J1 as [J1|J1]; [specialize (P2 _ _ _ _ _ J1 J2); lia|].
    apply in_map_iff in J1 as (o & E & J1). injection E as <- ->. pose proof (Q _ J1) as E. cbn in E. subst t.
    destruct (CT _ _ _ J2) as (q & N). rewrite NU in N. injection N as <- <-. pose proof (meets_now _ _ _ _ (P1 _ _ _ _ NU J2) ND). lia.
Qed.
Lemma pinv_new s tr s' os c p y : pinv s tr -> (forall n t d, In (n, OCall t d) tr -> exists q, nth_error (c_tasks s) t = Some (mkT d q)) -> (forall m t r, In (m, ORet t r) tr -> exists x, nth_error (c_tasks s) t = Some x) ->
  c_now s' = c_now s -> c_tasks s' = upd (length (c_tasks s)) (mkT c p) (c_tasks s ++ [y]) ->
  meets (c_now s) c p (c_now s + share (length (c_tasks s)) (OCall (length (c_tasks s)) c)) -> (forall o, In o os -> match o with OCall _ _ => False | ORet v _ => v = length (c_tasks s) | _ => True end) ->
  pinv s' (tr ++ stamp (c_now s) (OCall (length (c_tasks s)) c :: os)).
Proof.
  intros [P1 P2] CT RT T K M Q. set (u := length (c_tasks s)) in *.
  assert (OLD : forall n t d, In (n, OCall t d) (tr ++ stamp (c_now s) (OCall u c :: os)) -> In (n, OCall t d) tr /\ (t < u)%nat \/ n = c_now s /\ t = u /\ d = c).
  { intros n t d J. apply in_app_or in J as [J|[J|J]]; [left; split; [exact J|]; destruct (CT _ _ _ J) as (q & N); exact (nth_lt _ _ _ N)|right; injection J as -> -> ->; auto|].
    apply in_map_iff in J as (o' & E & J). injection E as _ ->. elim (Q _ J). }
  assert (NEW : share u (OCall u c) <= allowance (tr ++ stamp (c_now s) (OCall u c :: os)) u) by (eapply allowance_in; apply in_or_app; right; left; reflexivity).
  split.
  - intros t d q n N J. rewrite T. rewrite K, nth_upd in N. destruct (OLD _ _ _ J) as [[J' L]|(-> & -> & ->)].
    + destruct (Nat.eqb_spec u t); [lia|]. rewrite nth_error_app1 in N by exact L. eapply meets_more; [|exact (P1 _ _ _ _ N J')]. rewrite allowance_app. pose proof (allowance_pos (stamp (c_now s) (OCall u c :: os)) t). lia.
    + rewrite Nat.eqb_refl, nth_snoc in N. unfold u in N at 1. rewrite Nat.eqb_refl in N. injection N as <-. eapply meets_more; [|exact M]. lia.
  - intros t d n m r J1 J2. pose proof (allowance_pos (stamp (c_now s) (OCall u c :: os)) t) as AP.
    apply in_app_or in J1 as [J1|[J1|J1]]; [|discriminate|].
    + destruct (OLD _ _ _ J2) as [[J' L]|(-> & -> & ->)]; [specialize (P2 _ _ _ _ _ J1 J'); rewrite allowance_app; lia|]. destruct (RT _ _ _ J1) as (x & N). apply nth_lt in N. unfold u in N. lia.
    + apply in_map_iff in J1 as (o & E & J1). injection E as <- ->. pose proof (Q _ J1) as E. cbn in E. subst t.
      destruct (OLD _ _ _ J2) as [[_ L]|(-> & _ & ->)]; [lia|]. pose proof (share_pos u (OCall u c)). lia.
Qed.
Lemma prompt_pinv es s tr : prompt_exec conn0 es s tr -> pinv s tr.
Proof.
  induction 1 as [|es s tr e s' os PX P ST PR]; [split; [intros t c p n N; destruct t; discriminate|intros t c n m r []]|].
  pose proof (prompt_run _ _ _ _ PX) as X. destruct (exec_good _ _ _ X) as [G _]. pose proof G as (IA & _).
  assert (CT : forall n t d, In (n, OCall t d) tr -> exists q, nth_error (c_tasks s) t = Some (mkT d q)) by (intros n t d J; exact (called_task _ _ _ _ _ _ X J)).
  assert (RT : forall m t r, In (m, ORet t r) tr -> exists x, nth_error (c_tasks s) t = Some x) by (intros m t r J; destruct (proj2 (exec_owners _ _ _ X) _ _ _ J) as (c & N); eauto).
  destruct (good_case _ _ _ _ _ G ST); subst.
  - eapply pinv_same; [exact P|reflexivity|reflexivity|intros o []].
  - cbn. rewrite app_nil_r. split; [|exact (proj2 P)]. intros t c p n N J. cbn [c_tasks c_now] in *. destruct P as [P _]. specialize (P _ _ _ _ N J).
    destruct (Z.eq_dec dt 0) as [->|NZ]; [rewrite Z.add_0_r; exact P|]. assert (CAN : forall r, p = PDone r -> meets (c_now s + dt) c p (n + allowance tr t)) by (intros r ->; exact Logic.I).
    assert (DEC : (exists r, p = PDone r) \/ forall r, p <> PDone r) by (destruct p; eauto; right; discriminate). destruct DEC as [(r & E)|ND]; [exact (CAN r E)|].
    assert (POS : forall d, 0 <= d -> (forall dl, deadline p = Some dl -> dl <= c_now s + d) -> possible (later d s) t).
    { intros d Ld Q. eapply (can_step _ tr); [apply later_ok; [exact G|exact Ld]|exact (exec_winv _ _ _ X)|exact N|exact ND|exact Q]. }
    assert (DL : exists dl, deadline p = Some dl /\ c_now s + dt <= dl).
    { destruct (deadline p) as [dl|] eqn:D.
      - exists dl. split; [reflexivity|]. destruct (Z_le_gt_dec (c_now s + dt) dl) as [|GT]; [assumption|exfalso].
        apply (PR dt (Z.max 0 (dl - c_now s)) t eq_refl); [lia|]. apply POS; [lia|]. intros dl' E. injection E as <-. lia.
      - exfalso. apply (PR dt 0 t eq_refl); [lia|]. apply POS; [lia|]. intros dl' E. discriminate. }
    destruct DL as (dl & D & L). destruct p as [aid sq dl' ph ses|h f dl' ph|h f|r]; try discriminate; destruct ph; try discriminate; injection D as ->; cbn in P |- *; lia.
  - eapply pinv_new; [exact P|exact CT|exact RT|reflexivity|reflexivity|exact Logic.I|]. intros o [<-|[]]. reflexivity.
  - eapply pinv_new; [exact P|exact CT|exact RT|reflexivity|reflexivity|exact Logic.I|]. intros o J. apply in_app_or in J as [J|[<-|[]]]; [|reflexivity]. apply in_conn_send in J. subst o. exact Logic.I.
  - eapply pinv_new; [exact P|exact CT|exact RT|reflexivity|reflexivity| |].
    + cbn [meets share]. rewrite Nat.eqb_refl. assert (S : sending c = true) by (destruct c; [reflexivity|reflexivity|discriminate]). rewrite S. lia.
    + intros o J. apply in_conn_send in J. subst o. exact Logic.I.
  - eapply pinv_new; [exact P|exact CT|exact RT|reflexivity|reflexivity| |intros o []]. cbn [meets share sending reply_timeout]. rewrite Nat.eqb_refl. lia.
  - destruct (packet_frame_of _ _ _ _ _ G H0 H1) as (_ & [T _ _ _ E] & _). eapply pinv_same; [exact P|exact T|exact E|]. intros o J. exact (packet_quiet _ _ _ _ _ _ G ST J).
  - eapply pinv_move; [exact P|exact CT|exact H|reflexivity|reflexivity|discriminate| |intros o []]. cbn; intros; lia.
  - eapply pinv_move; [exact P|exact CT|exact H|reflexivity|reflexivity|discriminate| |intros o []]. cbn; intros; lia.
  - eapply pinv_move; [exact P|exact CT|exact H|reflexivity|reflexivity|discriminate| |intros o [<-|[]]; exact Logic.I]. intros k. cbn [meets stamp map allowance fold_right snd share]. rewrite Nat.eqb_refl. lia.
  - eapply pinv_move; [exact P|exact CT|exact H|reflexivity|reflexivity|discriminate|intros; exact Logic.I|intros o [<-|[]]; reflexivity].
  - eapply pinv_move; [exact P|exact CT|exact H|reflexivity|reflexivity|discriminate| |intros o []]. cbn; intros; lia.
  - eapply pinv_move; [exact P|exact CT|exact H|reflexivity|reflexivity|discriminate| |intros o []]. cbn; intros; lia.
  - eapply pinv_move; [exact P|exact CT|exact H|reflexivity|reflexivity|discriminate|intros; exact Logic.I|intros o [<-|[]]; reflexivity].
  - eapply pinv_move; [exact P|exact CT|exact H|reflexivity|reflexivity|discriminate| |intros o []]. cbn; intros; lia.
  - eapply pinv_move; [exact P|exact CT|exact H|reflexivity|reflexivity|discriminate|intros; exact Logic.I|intros o [<-|[]]; reflexivity].
  - eapply pinv_move; [exact P|exact CT|exact H|reflexivity|reflexivity|discriminate|intros; exact Logic.I|intros o [<-|[]]; reflexivity].
  - eapply pinv_move; [exact P|exact CT|exact H|reflexivity|reflexivity|discriminate|intros; exact Logic.I|intros o [<-|[]]; reflexivity].
  - eapply pinv_move; [exact P|exact CT|exact H|reflexivity|reflexivity|discriminate| |intros o []]. cbn; intros; lia.
  - eapply pinv_move; [exact P|exact CT|exact H|reflexivity|reflexivity|discriminate|intros; exact Logic.I|intros o [<-|[]]; reflexivity].
  - eapply pinv_move; [exact P|exact CT|exact H|reflexivity|reflexivity|discriminate|intros; exact Logic.I|intros o [<-|[]]; reflexivity].
  - eapply pinv_move; [exact P|exact CT|exact H|reflexivity|reflexivity|discriminate|intros; exact Logic.I|intros o [<-|[]]; reflexivity].
  - eapply pinv_move; [exact P|exact CT|exact H|reflexivity|reflexivity|discriminate| |intros o []]. cbn; intros; lia.
  - eapply pinv_same; [exact P|reflexivity|reflexivity|]. intros o J. apply in_conn_send in J. subst o. exact Logic.I.
Qed.
Lemma in_time es s tr n t c : prompt_exec conn0 es s tr -> In (n, OCall t c) tr ->
  (forall m r, In (m, ORet t r) tr -> m <= n + allowance tr t) /\ ((forall m r, ~ In (m, ORet t r) tr) -> c_now s <= n + allowance tr t).
Proof.
  intros PX J. destruct (prompt_pinv _ _ _ PX) as [P1 P2]. pose proof (prompt_run _ _ _ _ PX) as X. split; [intros m r R; exact (P2 _ _ _ _ _ R J)|].
  intros NR. destruct (called_task _ _ _ _ _ _ X J) as (p & N). refine (meets_now _ _ _ _ (P1 _ _ _ _ N J) _). intros r ->. destruct (exec_told _ _ _ X _ _ _ N) as (m & Q). exact (NR _ _ Q).
Qed.

(** ** executable form of prompt runs, for examples *)
Definition idle (s : conn) (dt : Z) : bool :=
  forallb (fun x => match t_pc x with
    | PAck aid _ dl PhWaiting _ => (c_now s + dt <=? dl) && match nth_error (c_acks s) aid with Some a => negb (a_set a) | None => true end
    | PWait _ f dl PhWaiting => (c_now s + dt <=? dl) && match nth_error (w_futs (c_w s)) f with Some FPending => true | _ => false end
    | PDone _ => true
    | _ => false end) (c_tasks s).
Fixpoint prompt_run_of (s : conn) (es : list event) : option (conn * trace) :=
  match es with
  | [] => Some (s, [])
  | e :: es' => if match e with EvAdvance dt => idle s dt | _ => true end then
      match step s e with
      | Some (s', os) => match prompt_run_of s' es' with Some (s'', tr) => Some (s'', stamp (c_now s) os ++ tr) | None => None end
      | None => None
      end else None
  end.
Lemma idle_ok s dt d t : idle s dt = true -> 0 <= d < dt -> ~ possible (later d s) t.
Proof.
  intros I L P. unfold possible in P. cbn [step c_tasks later] in P. destruct (nth_error (c_tasks s) t) as [[c p]|] eqn:N; [|destruct P as [P|P]; elim P; reflexivity].
  pose proof (proj1 (forallb_forall _ _) I _ (nth_error_In _ _ N)) as Q. cbn [t_pc] in *. cbn [c_now c_acks c_w later] in P.
  destruct p as [aid sq dl [] ses|h f dl []|h f|r]; cbn [resume] in P; try discriminate.
  - apply andb_prop in Q as [Q1 Q2]. cbn [c_acks later] in P. destruct (nth_error (c_acks s) aid) as [[st x []]|]; try discriminate; [|destruct P as [P|P]; elim P; reflexivity]. cbn in P.
    destruct P as [P|P]; [|elim P; reflexivity]. destruct (Z.leb_spec dl (c_now s + d)); [lia|]. elim P. reflexivity.
  - apply andb_prop in Q as [Q1 Q2]. cbn [c_w later] in P. destruct (nth_error (w_futs (c_w s)) f) as [[]|]; try discriminate. destruct P as [P|P]; [|elim P; reflexivity].
    destruct (Z.leb_spec dl (c_now s + d)); [lia|]. elim P. reflexivity.
  - destruct P as [P|P]; elim P; reflexivity.
Qed.
Lemma prompt_app s0 es1 s1 tr1 es2 s2 tr2 : prompt_exec s0 es1 s1 tr1 -> prompt_exec s1 es2 s2 tr2 -> prompt_exec s0 (es1 ++ es2) s2 (tr1 ++ tr2).
Proof. intros A B. induction B as [|es s tr e s' os B IH E Q]; [rewrite !app_nil_r; exact A|]. rewrite !app_assoc. eapply R_snoc; eassumption. Qed.
Lemma prompt_run_ok es : forall s s' tr, prompt_run_of s es = Some (s', tr) -> prompt_exec s es s' tr.
Proof.
  induction es as [|e es IH]; intros s s' tr E; cbn [prompt_run_of] in E; [injection E as <- <-; constructor|].
  destruct (match e with EvAdvance dt => idle s dt | _ => true end) eqn:I; [|discriminate].
  destruct (step s e) as [[s1 os]|] eqn:S; [|discriminate]. destruct (prompt_run_of s1 es) as [[s2 tr2]|] eqn:R; [|discriminate]. injection E as <- <-.
  change (e :: es) with ([e] ++ es). eapply prompt_app; [|exact (IH _ _ _ R)].
  refine (R_snoc s [] s [] e s1 os (R_nil s) S _). intros dt d t -> L. exact (idle_ok _ _ _ _ I L).
Qed.
