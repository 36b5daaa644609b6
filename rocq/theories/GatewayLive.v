(** No call of a gateway hangs: what it waits for ends (ConnLive.v), and it waits only finitely often. *)
From Coq Require Import String ZArith List Bool Lia Wellfounded.
From Verif Require Import Py Schema Registry Codec Waiter Conn SpecConn SpecLive ConnLemmas ConnAck ConnInv ConnCases ConnProps ConnCalm ConnCut ConnLive.
From Verif Require Import Gateway SpecGateway SpecGatewayLive GatewayProofs GatewayLinks GatewayStory.
Import ListNotations.
Open Scope list_scope.
Open Scope string_scope.
Open Scope list_scope.
Open Scope Z_scope.

(** ** one connection *)
Lemma call_old k c k' os u x : step k (EvCall c) = Some (k', os) -> nth_error (c_tasks k) u = Some x -> nth_error (c_tasks k') u = Some x.
Proof.
  intros ST N. pose proof (call_case _ _ _ _ ST) as K. pose proof (nth_lt _ _ _ N) as LT.
  inversion K; subst; cbn [c_tasks set_task s_num s_new set_w set_seq reset_ka add_ack]; rewrite nth_upd; (destruct (Nat.eqb_spec (length (c_tasks k)) u); [lia|]); rewrite nth_error_app1 by exact LT; exact N.
Qed.
(** a call that ends says so *)
Lemma conn_done k tr e k' os u c p : good k tr -> step k e = Some (k', os) -> nth_error (c_tasks k) u = Some (mkT c p) -> (forall r, p <> PDone r) ->
  exists p', nth_error (c_tasks k') u = Some (mkT c p') /\ ((forall r, p' <> PDone r) \/ exists r, p' = PDone r /\ returned os = Some (u, r)).
Proof.
  intros G ST N ND. pose proof (nth_lt _ _ _ N) as LT. destruct (good_case _ _ _ _ _ G ST); subst.
  1-2: (exists p; split; [exact N|left; exact ND]).
  1-4: (exists p; split; [eapply call_old; eassumption|left; exact ND]).
  1: (destruct (packet_frame_of _ _ _ _ _ G H0 H1) as (_ & [_ _ _ _ E] & _); exists p; rewrite E; split; [exact N|left; exact ND]).
  17: (exists p; split; [exact N|left; exact ND]).
  all: try match goal with c := _ |- _ => subst c end; cbn [c_tasks set_task set_w set_ack set_ackq]; rewrite nth_upd.
  all: match goal with |- context [Nat.eqb ?a ?b] => destruct (Nat.eqb_spec a b) as [<-|NE]; [|exists p; split; [exact N|left; exact ND]] end; rewrite N.
  all: match goal with J : nth_error _ ?a = Some (mkT _ _), M : nth_error _ ?a = Some (mkT _ _) |- _ => rewrite M in J; injection J; intros; subst end.
  all: eexists; (split; [reflexivity|]); first [left; intros r0; discriminate|right; eexists; split; reflexivity].
Qed.
(** and its steps end no other call *)
Lemma own_ret k tr e k' os u u' r : good k tr -> step k e = Some (k', os) -> SpecLive.own u e = true -> returned os = Some (u', r) -> u' = u.
Proof.
  intros G ST O R. destruct (good_case _ _ _ _ _ G ST); subst; try discriminate O; try discriminate R; cbn in O; apply Nat.eqb_eq in O; subst; cbn in R; injection R as <- _; reflexivity.
Qed.

(** ** calls on connections only add calls *)
Definition ext (d d' : gdata) : Prop := forall l k, conn_at l d = Some k -> exists k', conn_at l d' = Some k' /\ forall u x, nth_error (c_tasks k) u = Some x -> nth_error (c_tasks k') u = Some x.
Lemma ext_refl d : ext d d. Proof. intros l k K. exists k. auto. Qed.
Lemma ext_trans d d1 d2 : ext d d1 -> ext d1 d2 -> ext d d2.
Proof. intros A B l k K. destruct (A _ _ K) as (k1 & K1 & Q1). destruct (B _ _ K1) as (k2 & K2 & Q2). exists k2. auto. Qed.
Lemma at_set l k d l' : conn_at l d <> None -> conn_at l' (set_conn l k d) = if same_link l l' then Some k else conn_at l' d.
Proof.
  intros NN. destruct l as [i|], l' as [j|]; cbn in *; try reflexivity. rewrite nth_upd. destruct (Nat.eqb_spec i j) as [<-|]; [|reflexivity]. destruct (nth_error (d_links d) i); [reflexivity|congruence].
Qed.
Lemma moves_ext t d os d' : moves t d os d' -> ext d d'.
Proof.
  induction 1 as [d|d o d' os _ _ IH|d l k c u k' os d' os' K ST _ _ IH|d n a d' os _ IH|d nm ctl nodes conns d' os _ IH]; try exact IH; [apply ext_refl| |].
  - eapply ext_trans; [|exact IH]. intros l' k0 K0. rewrite at_set by congruence. destruct (same_link l l') eqn:S.
    + apply same_link_spec in S. subst l'. rewrite K in K0. injection K0 as <-. exists k'. split; [reflexivity|]. intros u0 x N. eapply call_old; eassumption.
    + exists k0. auto.
  - eapply ext_trans; [|exact IH]. intros [i|] k K; cbn in *; [|exists k; auto]. exists k. rewrite nth_error_app1 by exact (nth_lt _ _ _ K). auto.
Qed.
Lemma ext_length d d' l k k' : ext d d' -> conn_at l d = Some k -> conn_at l d' = Some k' -> (length (c_tasks k) <= length (c_tasks k'))%nat.
Proof.
  intros E K K'. destruct (E _ _ K) as (k1 & K1 & Q). rewrite K' in K1. injection K1 as <-. destruct (Nat.le_gt_cases (length (c_tasks k)) (length (c_tasks k'))) as [|GT]; [assumption|].
  destruct (nth_error (c_tasks k) (length (c_tasks k'))) as [x|] eqn:N; [|apply nth_error_None in N; lia]. apply Q in N. apply nth_lt in N. lia.
Qed.

(** ** what a coroutine waits for is there *)
Definition pending (l : option nat) (u : nat) (d : gdata) : Prop := exists k c p, conn_at l d = Some k /\ nth_error (c_tasks k) u = Some (mkT c p) /\ forall r, p <> PDone r.
Definition fresh (t : nat) (d : gdata) (g : go) : Prop :=
  match gact g with
  | AWait (AwCall l u) _ => pending l u (gd g) /\ (forall k, conn_at l d = Some k -> (length (c_tasks k) <= u)%nat) /\ exists c, In (GSub t l u c) (gos g)
  | AWait (AwOpen l) _ => exists k, conn_at l (gd g) = Some k
  | _ => True
  end.
Lemma fresh_later t d d1 d2 os0 os a : ext d d1 -> fresh t d1 (d2, os, a) -> fresh t d (d2, os0 ++ os, a).
Proof.
  unfold fresh. cbn. intros E F. destruct a as [r|[l u|l|] fs]; auto. destruct F as (P & L & c & J). split; [exact P|]. split; [|exists c; apply in_or_app; right; exact J].
  intros k K. destruct (E _ _ K) as (k1 & K1 & _). pose proof (ext_length _ _ _ _ _ E K K1). specialize (L _ K1). lia.
Qed.
Lemma fresh_ret t r d d' : fresh t d (ret r d'). Proof. exact I. Qed.
Lemma fresh_done t d d' os r : fresh t d (d', os, ARet r). Proof. exact I. Qed.
Lemma fresh_listen t d d' os fs : fresh t d (d', os, AWait AwListen fs). Proof. exact I. Qed.
Lemma fresh_own t d d' os fs : fresh t d (d', os, AWait (AwOpen None) fs). Proof. exists (d_c d'). reflexivity. Qed.
Lemma fresh_new t d x y os : fresh t d (set_links (d_links d ++ [x]) y, os, AWait (AwOpen (Some (length (d_links d)))) [FOpen 0 0]).
Proof. unfold fresh. cbn. eexists. rewrite nth_error_app2, Nat.sub_diag by lia. reflexivity. Qed.
Lemma fresh_sub t l c d : fresh t d (sub t l c d).
Proof.
  unfold sub. destruct (conn_at l d) as [k|] eqn:K; [|exact I]. destruct (step k (EvCall c)) as [[k' os]|] eqn:S; [|exact I]. unfold fresh. cbn [gact snd gd gos fst].
  destruct (call_pc _ _ _ _ S) as (p & N & _). rewrite N. assert (Q : (forall r, p <> PDone r) -> pending l (length (c_tasks k)) (set_conn l k' d) /\ (forall k0, conn_at l d = Some k0 -> (length (c_tasks k0) <= length (c_tasks k))%nat) /\
    exists c0, In (GSub t l (length (c_tasks k)) c0) (GSub t l (length (c_tasks k)) c :: map (GAt l) os)).
  { intros ND. split; [|split; [intros k0 K0; rewrite K in K0; injection K0 as <-; lia|exists c; left; reflexivity]].
    exists k', c, p. rewrite at_set, same_link_refl by congruence. auto. }
  destruct p; try exact I; apply Q; discriminate.
Qed.
Lemma fresh_frames t d d' os w gs fs : fresh t d (d', os, AWait w gs) -> fresh t d (d', os, AWait w fs). Proof. exact (fun H => H). Qed.
Lemma fresh_under t d g fs k : good_go t d g -> fresh t d g -> (forall r d', fresh t d' (k r d')) -> fresh t d (under g fs k).
Proof.
  intros G F K. destruct g as [[d1 os] a]. unfold under. destruct a as [r|w gs]; [|exact F]. specialize (K r d1). destruct (k r d1) as [[d2 os2] a2].
  eapply fresh_later; [|exact K]. eapply moves_ext. exact G.
Qed.
Lemma fresh_tables t d nm ctl nodes conns g : fresh t (mkD (d_c d) nm ctl nodes conns (d_links d)) g -> fresh t d g.
Proof. exact (fun H => H). Qed.
Lemma fresh_framed t l c d fs : fresh t d (match sub t l c d with (d', os, AWait w gs) => (d', os, AWait w (gs ++ fs)) | g => g end).
Proof. pose proof (fresh_sub t l c d) as G. destruct (sub t l c d) as [[d' os] [r|w gs]]; exact G. Qed.
Lemma fresh_ip t n d : fresh t d (start_ip t n d).
Proof.
  unfold start_ip. destruct (solicit n) as [bs|e]; [|exact I]. pose proof (fresh_sub t None (CWait adv_hid 3000) d) as G.
  destruct (sub t None (CWait adv_hid 3000) d) as [[d' os] [r|w fs]]; [exact I|]. exact (fresh_later t d d d' [GAsk t n bs (c_up (d_c d))] os (AWait w (fs ++ [FIp n])) (ext_refl d) G).
Qed.
Lemma fresh_report_loop t ns : forall d, fresh t d (report_loop t ns d).
Proof.
  induction ns as [|n ns IH]; intros d; cbn [report_loop]; [exact I|]. destruct (dmem Z.eqb n (d_nodes d)); [apply IH|].
  apply fresh_under; [apply good_ip|apply fresh_ip|]. intros [?|?] ?; exact I.
Qed.
Lemma fresh_setup_loop t ns : forall d, fresh t d (setup_loop t ns d).
Proof.
  induction ns as [|n ns IH]; intros d; cbn [setup_loop]; [exact I|]. destruct (dget Z.eqb n (d_nodes d)) as [ip|]; [|exact I]. destruct (truthy ip); [apply IH|].
  apply fresh_under; [apply good_ip|apply fresh_ip|]. intros [?|?] ?; exact I.
Qed.
Lemma fresh_mode t m tmo d : fresh t d (start_mode t m tmo d).
Proof. unfold start_mode. exact (fresh_framed t _ _ d [FMode m]). Qed.
Lemma fresh_list t d : fresh t d (start_list t d).
Proof.
  unfold start_list. destruct (d_nodes d); [|exact I]. destruct (new_msg _ _) as [m|e]; [|exact I].
  exact (fresh_framed t None _ (set_nm (d_nm d + 1) d) [FList]).
Qed.
Lemma fresh_nm t q d : fresh t d (start_nm t q d).
Proof. unfold start_nm. destruct (nm_msg q _) as [m|e]; [|exact I]. exact (fresh_framed t None _ (set_nm (d_nm d + 1) d) [FNm q]). Qed.
Lemma fresh_link t n d : fresh t d (start_link t n d).
Proof. unfold start_link. destruct (dget Z.eqb n (d_conns d)); [exact I|]. apply fresh_under; [apply good_ip|apply fresh_ip|]. intros; exact I. Qed.

Section Live.
Variable ord : list Z -> list Z.
Notation unwind := (unwind ord). Notation frame_step := (frame_step ord). Notation start := (start ord). Notation gstep := (gstep ord). Notation gexec := (gexec ord).
Notation spawn := (spawn ord). Notation wake := (wake ord). Notation setup_nodes := (setup_nodes ord). Notation start_report := (start_report ord).

Opaque fresh.
Lemma fresh_setup t r d : fresh t d (setup_nodes t r d).
Proof. unfold Gateway.setup_nodes. destruct r as [[v|l]|e]; try apply fresh_ret. destruct v; try apply fresh_ret. apply fresh_setup_loop. Qed.
Lemma fresh_frame t f r d : fresh t d (frame_step t f r d).
Proof.
  destruct f, r as [[v|l']|e]; cbn [Gateway.frame_step]; try apply fresh_ret; try apply fresh_setup; try (destruct e; apply fresh_ret).
  - apply fresh_done.
  - destruct v; try apply fresh_ret. exact (fresh_frames t d _ _ _ _ _ (fresh_new t d _ _ _)).
  - apply fresh_sub.
  - eapply fresh_tables. apply fresh_report_loop.
  - destruct (is_mode v mode); [apply fresh_ret|]. apply fresh_under; [| |intros; apply fresh_ret]; (destruct (new_msg _ _); [apply good_sub || apply fresh_sub|apply good_ret || apply fresh_ret]).
  - destruct (getattr v "nodes"); apply fresh_ret.
  - apply fresh_under; [apply good_mode|apply fresh_mode|]. intros [?|?] ?; apply fresh_ret || apply fresh_listen.
  - apply fresh_under; [apply good_mode|apply fresh_mode|]. intros [?|?] ?; apply fresh_ret || apply fresh_listen.
  - apply fresh_listen.
  - apply fresh_listen.
  - apply fresh_under; [apply good_sub|apply fresh_sub|]. intros; apply fresh_ret.
  - apply fresh_under; [apply good_sub|apply fresh_sub|]. intros; apply fresh_ret.
  - apply fresh_under; [apply good_list|apply fresh_list|]. intros; apply fresh_setup.
  - apply fresh_under; [apply good_list|apply fresh_list|]. intros; apply fresh_setup.
  - eapply fresh_tables. apply fresh_setup_loop.
Qed.
Lemma fresh_unwind t fs : forall r d, fresh t d (unwind t r fs d).
Proof.
  induction fs as [|f fs IH]; intros r d; cbn [Gateway.unwind]; [apply fresh_ret|]. pose proof (fresh_frame t f r d) as F. pose proof (good_frame ord t f r d) as G.
  destruct (frame_step t f r d) as [[d' os] [r'|w gs]]; [|exact F]. specialize (IH r' d'). destruct (unwind t r' fs d') as [[d'' os'] a].
  eapply fresh_later; [|exact IH]. eapply moves_ext. exact G.
Qed.
Lemma fresh_start t c d : fresh t d (start t c d).
Proof.
  destruct c; cbn [Gateway.start]; auto using fresh_nm, fresh_list, fresh_ip, fresh_link, fresh_mode.
  - apply fresh_under; [apply good_link|apply fresh_link|]. intros [[?|?]|?] ?; try apply fresh_ret. apply fresh_sub.
  - unfold Gateway.start_report. destruct nodes; try apply fresh_ret. eapply fresh_tables. apply fresh_report_loop.
  - apply fresh_own.
Qed.
Transparent fresh.

(** ** every waiting task waits for something of its own *)
Definition held (t : nat) (w : await) (d : gdata) (tr : gtrace) : Prop :=
  match w with AwCall l u => pending l u d /\ made tr t l u | AwOpen l => exists k, conn_at l d = Some k | AwListen => True end.
Definition all_held (s : gw) (tr : gtrace) : Prop := forall t c w fs, nth_error (g_tasks s) t = Some (mkGT c (GWait w fs)) -> held t w (g_d s) tr.
Definition apart (s : gw) : Prop := forall t t' c c' l u fs fs', nth_error (g_tasks s) t = Some (mkGT c (GWait (AwCall l u) fs)) -> nth_error (g_tasks s) t' = Some (mkGT c' (GWait (AwCall l u) fs')) -> t = t'.
Lemma made_incl tr tr' t l u : incl tr tr' -> made tr t l u -> made tr' t l u.
Proof. intros I (n & c & J). exists n, c. apply I. exact J. Qed.
Lemma held_ext t w d d' tr tr' : held t w d tr -> ext d d' -> incl tr tr' -> held t w d' tr'.
Proof.
  intros H E I. destruct w as [l u|l|]; cbn in *; [| |exact H].
  - destruct H as [(k & c & p & K & N & ND) M]. destruct (E _ _ K) as (k' & K' & Q). split; [exists k', c, p; auto|eapply made_incl; eassumption].
  - destruct H as (k & K). destruct (E _ _ K) as (k' & K' & _). eauto.
Qed.
(** one task runs from [d1] to its next await, the others wait on *)
Lemma inv_move ts tr t c d1 d os a ts' tr' :
  (forall t' c' w fs, t' <> t -> nth_error ts t' = Some (mkGT c' (GWait w fs)) -> held t' w d1 tr) ->
  (forall t1 t2 c1 c2 l u fs1 fs2, t1 <> t -> t2 <> t -> nth_error ts t1 = Some (mkGT c1 (GWait (AwCall l u) fs1)) -> nth_error ts t2 = Some (mkGT c2 (GWait (AwCall l u) fs2)) -> t1 = t2) ->
  moves t d1 os d -> fresh t d1 (d, os, a) -> nth_error ts' t = Some (mkGT c (pc_of a)) -> (forall t', t' <> t -> nth_error ts' t' = nth_error ts t') ->
  incl tr tr' -> (forall o, In o os -> exists n, In (n, o) tr') -> all_held (mkG d ts') tr' /\ apart (mkG d ts').
Proof.
  intros H A M F N1 N2 I J. pose proof (moves_ext _ _ _ _ M) as E. split.
  - intros t' c' w fs N. cbn [g_tasks g_d] in *. destruct (Nat.eq_dec t' t) as [->|NE].
    + rewrite N1 in N. injection N as <- P. destruct a as [r|w0 gs]; [discriminate|]. injection P as -> ->. unfold fresh in F. cbn in F. destruct w as [l u|l|]; cbn; [|exact F|exact F].
      destruct F as (P & _ & c0 & Q). split; [exact P|]. destruct (J _ Q) as (n & Q'). exists n, c0. exact Q'.
    + rewrite (N2 _ NE) in N. eapply held_ext; [exact (H _ _ _ _ NE N)|exact E|exact I].
  - assert (L : forall t' c1 c2 l u fs1 fs2, t' <> t -> nth_error ts' t = Some (mkGT c1 (GWait (AwCall l u) fs1)) -> nth_error ts' t' = Some (mkGT c2 (GWait (AwCall l u) fs2)) -> False).
    { intros t' c1 c2 l u fs1 fs2 NE Q1 Q2. rewrite N1 in Q1. injection Q1 as <- P. destruct a as [r|w0 gs]; [discriminate|]. injection P as -> ->. rewrite (N2 _ NE) in Q2.
      destruct (H _ _ _ _ NE Q2) as [(k & c0 & p & K & N & _) _]. destruct F as (_ & LE & _). specialize (LE _ K). apply nth_lt in N. lia. }
    intros t1 t2 c1 c2 l u fs1 fs2 Q1 Q2. cbn [g_tasks] in *. destruct (Nat.eq_dec t1 t) as [->|NE1], (Nat.eq_dec t2 t) as [->|NE2]; [reflexivity| | |].
    + elim (L _ _ _ _ _ _ _ NE2 Q1 Q2).
    + elim (L _ _ _ _ _ _ _ NE1 Q2 Q1).
    + rewrite (N2 _ NE1) in Q1. rewrite (N2 _ NE2) in Q2. exact (A _ _ _ _ _ _ _ _ NE1 NE2 Q1 Q2).
Qed.
Lemma stamped n (os : list gobs) o tr : In o os -> exists m, In (m, o) (tr ++ gstamp n os).
Proof. intros J. exists n. apply in_or_app. right. apply in_map. exact J. Qed.
Lemma inv_spawn c s tr s' os n pre : all_held s tr -> apart s -> spawn c s = (s', os) -> all_held s' (tr ++ gstamp n (pre ++ os)) /\ apart s'.
Proof.
  intros H A E. destruct (start (length (g_tasks s)) c (g_d s)) as [[d o1] a] eqn:S. rewrite (spawn_eq _ _ _ _ _ _ S) in E. injection E as <- <-.
  pose proof (good_start ord (length (g_tasks s)) c (g_d s)) as G. pose proof (fresh_start (length (g_tasks s)) c (g_d s)) as F. rewrite S in G, F.
  eapply (inv_move (g_tasks s) tr _ c); [| |exact G|exact F| | |apply incl_appl; apply incl_refl|].
  - intros t' c' w fs _ N. exact (H _ _ _ _ N).
  - intros t1 t2 c1 c2 l u fs1 fs2 _ _. apply A.
  - rewrite nth_snoc, Nat.eqb_refl. reflexivity.
  - intros t' NE. rewrite nth_snoc. destruct (Nat.eqb_spec t' (length (g_tasks s))); [contradiction|reflexivity].
  - intros o J. apply stamped. apply in_or_app. right. right. apply in_or_app. left. exact J.
Qed.
Lemma inv_wake t c w r fs s d1 tr s' os n pre : nth_error (g_tasks s) t = Some (mkGT c (GWait w fs)) -> apart s ->
  (forall t' c' w' fs', t' <> t -> nth_error (g_tasks s) t' = Some (mkGT c' (GWait w' fs')) -> held t' w' d1 tr) ->
  wake t w r fs (mkG d1 (g_tasks s)) = (s', os) -> all_held s' (tr ++ gstamp n (pre ++ os)) /\ apart s'.
Proof.
  intros N A H E. destruct (unwind t r fs d1) as [[d o1] a] eqn:U. rewrite (wake_eq _ _ _ _ _ _ _ _ _ _ _ N U) in E. injection E as <- <-.
  pose proof (good_unwind ord t fs r d1) as G. pose proof (fresh_unwind t fs r d1) as F. rewrite U in G, F.
  eapply (inv_move (g_tasks s) tr t c); [exact H| |exact G|exact F| | |apply incl_appl; apply incl_refl|].
  - intros t1 t2 c1 c2 l u fs1 fs2 _ _. apply A.
  - rewrite nth_upd, Nat.eqb_refl, N. reflexivity.
  - intros t' NE. apply nth_upd_other. congruence.
  - intros o J. apply stamped. apply in_or_app. right. right. apply in_or_app. left. exact J.
Qed.
Lemma waiter_none l u ts : forall i, waiter_of l u i ts = None -> forall t c fs, nth_error ts t <> Some (mkGT c (GWait (AwCall l u) fs)).
Proof.
  induction ts as [|x ts IH]; intros i H t c fs N; [destruct t; discriminate|]. cbn [waiter_of] in H. destruct (waits_for l u x) eqn:W.
  - unfold waits_for in W. destruct x as [c' [w fs'|r]]; cbn [gt_pc] in *; discriminate.
  - destruct t as [|t]; [|exact (IH _ H t c fs N)]. cbn in N. injection N as ->. unfold waits_for in W. cbn in W. rewrite Nat.eqb_refl, andb_true_r in W. destruct l; [rewrite Nat.eqb_refl in W|]; discriminate.
Qed.
Lemma gconn_eq s l e k k' os : (forall dt, e <> EvAdvance dt) -> e <> EvConnect -> conn_at l (g_d s) = Some k -> step k e = Some (k', os) ->
  gstep s (GConn l e) = match returned os with None => Some (mkG (set_conn l k' (g_d s)) (g_tasks s), flat_map (lift l (g_d s)) os)
        | Some (u, r) => match waiter_of l u 0 (g_tasks s) with None => Some (mkG (set_conn l k' (g_d s)) (g_tasks s), flat_map (lift l (g_d s)) os)
          | Some (t, fs) => let (s2, os2) := wake t (AwCall l u) (of_result r) fs (mkG (set_conn l k' (g_d s)) (g_tasks s)) in Some (s2, flat_map (lift l (g_d s)) os ++ os2) end end.
Proof. intros NA NC K ST. cbn [Gateway.gstep]. rewrite K. destruct e; try rewrite ST; try reflexivity; [congruence|elim (NA dt); reflexivity]. Qed.
Lemma link_good s tr l k : linked (g_d s) tr -> conn_at l (g_d s) = Some k -> exists evs, exec conn0 evs k (on_link l tr).
Proof. intros [_ X] K. destruct (X l) as (evs & XL). unfold cat in XL. rewrite K in XL. eauto. Qed.
Lemma step_held s tr e s' os : linked (g_d s) tr -> all_held s tr -> apart s -> gstep s e = Some (s', os) -> all_held s' (tr ++ gstamp (g_now s) os) /\ apart s'.
Proof.
  intros LK H A ST. assert (II : incl tr (tr ++ gstamp (g_now s) os)) by (apply incl_appl; apply incl_refl). destruct e as [dt|c|l e|t r|bs addr].
  - cbn [Gateway.gstep] in ST. destruct (0 <=? dt) eqn:P; [|discriminate]. injection ST as <- <-. split; [|exact A]. intros t c w fs N. cbn [g_tasks] in N. eapply held_ext; [exact (H _ _ _ _ N)| |exact II].
    intros l k K. exists (tick dt k). assert (T : c_tasks (tick dt k) = c_tasks k) by (unfold tick; cbn [step]; rewrite P; reflexivity). rewrite T. split; [|auto].
    destruct l as [i|]; cbn in *; [rewrite nth_error_map, K|injection K as <-]; reflexivity.
  - assert (E : Some (spawn c s) = Some (s', os)) by (cbn [Gateway.gstep] in ST; destruct c; try exact ST; discriminate). injection E as E. exact (inv_spawn _ _ _ _ _ (g_now s) [] H A E).
  - assert (NA : (forall dt, e <> EvAdvance dt) /\ e <> EvConnect) by (split; [intros dt|]; intros ->; discriminate). destruct NA as [NA NC].
    destruct (conn_at l (g_d s)) as [k|] eqn:K; [|cbn [Gateway.gstep] in ST; rewrite K in ST; destruct e; discriminate].
    destruct (step k e) as [[k' os0]|] eqn:S; [|cbn [Gateway.gstep] in ST; rewrite K in ST; destruct e; try rewrite S in ST; discriminate].
    rewrite (gconn_eq _ _ _ _ _ _ NA NC K S) in ST. destruct (link_good _ _ _ _ LK K) as (evs & XL). destruct (exec_good _ _ _ XL) as [GK _].
    assert (Q : forall t c w fs, (forall u r, returned os0 = Some (u, r) -> w <> AwCall l u) -> nth_error (g_tasks s) t = Some (mkGT c (GWait w fs)) -> held t w (set_conn l k' (g_d s)) tr).
    { intros t c w fs NW N. pose proof (H _ _ _ _ N) as HD. destruct w as [l0 u|l0|]; cbn [held] in *; [| |exact I].
      - destruct HD as [(k0 & c0 & p & K0 & N0 & ND) M]. split; [|exact M]. unfold pending. rewrite at_set by congruence. destruct (same_link l l0) eqn:SL; [|exists k0, c0, p; auto].
        apply same_link_spec in SL. subst l0. rewrite K in K0. injection K0 as <-. destruct (conn_done _ _ _ _ _ _ _ _ GK S N0 ND) as (p' & N' & [ND'|(r & _ & R)]); [exists k', c0, p'; auto|].
        elim (NW _ _ R). reflexivity.
      - destruct HD as (k0 & K0). rewrite at_set by congruence. destruct (same_link l l0); eauto. }
    destruct (returned os0) as [[u r]|] eqn:R.
    + destruct (waiter_of l u 0 (g_tasks s)) as [[t fs]|] eqn:W.
      * destruct (waiter_of_some _ _ _ _ _ _ W) as (c & _ & N). rewrite Nat.sub_0_r in N.
        destruct (wake t (AwCall l u) (of_result r) fs (mkG (set_conn l k' (g_d s)) (g_tasks s))) as [s2 os2] eqn:WK. injection ST as <- <-.
        eapply inv_wake; [exact N|exact A| |exact WK]. intros t' c' w' fs' NE N'. apply (Q t' c' w' fs'); [|exact N']. intros u0 r0 E ->. injection E as <- <-. elim NE. exact (A _ _ _ _ _ _ _ _ N' N).
      * injection ST as <- <-. split; [|exact A]. intros t c w fs N. cbn [g_tasks g_d] in *. eapply held_ext; [|apply ext_refl|exact II]. apply (Q t c w fs); [|exact N].
        intros u0 r0 E ->. injection E as <- <-. exact (waiter_none _ _ _ _ W _ _ _ N).
    + injection ST as <- <-. split; [|exact A]. intros t c w fs N. cbn [g_tasks g_d] in *. eapply held_ext; [|apply ext_refl|exact II]. apply (Q t c w fs); [|exact N]. discriminate.
  - cbn [Gateway.gstep] in ST. destruct (nth_error (g_tasks s) t) as [[c [w fs|x]]|] eqn:N; [|discriminate|discriminate]. destruct w as [l u|l|]; [discriminate| |].
    + destruct (conn_at l (g_d s)) as [k|] eqn:K; [|discriminate]. injection ST as W. eapply (inv_wake _ _ _ _ _ _ _ _ _ _ _ [] N A); [|exact W].
      intros t' c' w' fs' NE N'. eapply held_ext; [exact (H _ _ _ _ N')| |apply incl_refl]. destruct r as [x|ex]; [|apply ext_refl]. 
      intros l0 k0 K0. rewrite at_set by congruence. destruct (same_link l l0) eqn:SL; [|exists k0; auto]. apply same_link_spec in SL. subst l0. rewrite K in K0. injection K0 as <-. eexists. split; [reflexivity|]. auto.
    + injection ST as W. assert (SE : s = mkG (g_d s) (g_tasks s)) by (destruct s; reflexivity). rewrite SE in W. cbn [g_d g_tasks] in W. eapply (inv_wake _ _ _ _ _ _ _ _ _ _ _ [] N A); [|exact W].
      intros t' c' w' fs' NE N'. exact (H _ _ _ _ N').
  - cbn [Gateway.gstep] in ST. destruct (forallb is_byte bs); [|discriminate]. destruct (unsolicited bs addr (g_d s)) as [os1 [v|]].
    + destruct (spawn (GReport v) s) as [s2 os2] eqn:W. injection ST as <- <-. exact (inv_spawn _ _ _ _ _ (g_now s) (GPacket bs addr :: os1) H A W).
    + injection ST as <- <-. split; [|exact A]. intros t c w fs N. eapply held_ext; [exact (H _ _ _ _ N)|apply ext_refl|exact II].
Qed.
Lemma exec_held es s tr : gexec gw0 es s tr -> all_held s tr /\ apart s.
Proof.
  induction 1 as [|es s tr e s' os X [H A] ST]; [split; [intros [] c w fs N|intros [] t' c c' l u fs fs' N]; discriminate|].
  eapply step_held; [exact (exec_linked _ _ _ _ X)|exact H|exact A|exact ST].
Qed.

(** ** stacks of frames get smaller *)
Definition next (gs fs : list frame) : Prop := exists t r d d' os w, unwind t r fs d = (d', os, AWait w gs).
Definition shrinks (f : frame) : Prop := forall fs, Acc next fs -> Acc next (f :: fs).
Lemma shrink_all gs fs : Forall shrinks gs -> Acc next fs -> Acc next (gs ++ fs).
Proof. induction 1 as [|g gs G _ IH]; intros A; [exact A|]. apply G. apply IH. exact A. Qed.
Lemma shrink_by f : (forall t r d d' os w gs, frame_step t f r d = (d', os, AWait w gs) -> Forall shrinks gs) -> shrinks f.
Proof.
  intros H fs A. constructor. intros gs (t & r & d & d' & os & w & E). cbn [Gateway.unwind] in E. destruct (frame_step t f r d) as [[d1 o1] [r1|w1 gs1]] eqn:F.
  - destruct (unwind t r1 fs d1) as [[d2 o2] a2] eqn:U. injection E as <- <- ->. eapply Acc_inv; [exact A|]. exists t, r1, d1, d2, o2, w. exact U.
  - injection E as <- <- <- <-. apply shrink_all; [exact (H _ _ _ _ _ _ _ F)|exact A].
Qed.
Lemma sub_frames t l c d d' os w gs : sub t l c d = (d', os, AWait w gs) -> gs = [].
Proof. intros E. destruct (sub_own _ _ _ _ _ _ _ E) as [(_ & Q & _)|(k & k' & xs & _ & _ & _ & _ & [Q|(e & Q & _)])]; congruence. Qed.
Lemma under_frames g fs k d' os w gs : under g fs k = (d', os, AWait w gs) -> (exists d1 o1 gs1, g = (d1, o1, AWait w gs1) /\ gs = gs1 ++ fs) \/ exists r d1 o2, k r d1 = (d', o2, AWait w gs).
Proof.
  unfold under. destruct g as [[d1 o1] [r|w1 gs1]]; intros E; [|left; injection E as <- <- <- <-; eauto]. right. destruct (k r d1) as [[d2 o2] a] eqn:K. injection E as <- <- ->. eauto.
Qed.
Lemma ip_frames t n d d' os w gs : start_ip t n d = (d', os, AWait w gs) -> gs = [FIp n].
Proof.
  unfold start_ip. destruct (solicit n); [|discriminate]. destruct (sub t None (CWait adv_hid 3000) d) as [[d1 o1] [r|w1 fs]] eqn:S; [discriminate|]. intros E. injection E as <- <- <- <-. rewrite (sub_frames _ _ _ _ _ _ _ _ S). reflexivity.
Qed.
Ltac no := match goal with E : ret _ _ = _ |- _ => discriminate E | E : (_, _, ARet _) = _ |- _ => discriminate E end.
Ltac easy := apply shrink_by; intros t r d d' os w gs E; destruct r as [[?|?]|?]; cbn [Gateway.frame_step] in E; try no; try (match type of E with (match ?e with _ => _ end) = _ => match type of e with exn => destruct e end end; no).
Lemma s_ip n : shrinks (FIp n). Proof. easy. Qed.
Lemma s_open n l : shrinks (FOpen n l). Proof. easy. Qed.
Lemma s_link n : shrinks (FLink n).
Proof. easy. match type of E with (match ?v with _ => _ end) = _ => destruct v end; try no. injection E as <- <- <- <-. constructor; [apply s_open|constructor]. Qed.
Lemma s_send cmd sep dep tmo : shrinks (FSendTo cmd sep dep tmo).
Proof. easy. unfold send_over in E. rewrite (sub_frames _ _ _ _ _ _ _ _ E). constructor. Qed.
Lemma s_modeset : shrinks FModeSet. Proof. easy. Qed.
Lemma s_mode m : shrinks (FMode m).
Proof.
  easy. destruct (is_mode _ _); [no|]. apply under_frames in E as [(d1 & o1 & gs1 & E & ->)|(r & d1 & o2 & E)]; [|no]. destruct (new_msg _ _); [|no].
  rewrite (sub_frames _ _ _ _ _ _ _ _ E). constructor; [apply s_modeset|constructor].
Qed.
Lemma s_list : shrinks FList. Proof. easy. destruct (getattr _ _); no. Qed.
Lemma s_nm q : shrinks (FNm q). Proof. easy. Qed.
Lemma report_frames t ns : forall d d' os w gs, report_loop t ns d = (d', os, AWait w gs) -> exists n rest, gs = [FIp n; FReport n rest] /\ (length rest < length ns)%nat.
Proof.
  induction ns as [|n ns IH]; intros d d' os w gs E; cbn [report_loop] in E; [discriminate|]. destruct (dmem Z.eqb n (d_nodes d)).
  - destruct (IH _ _ _ _ _ E) as (n' & rest & -> & L). exists n', rest. split; [reflexivity|cbn; lia].
  - apply under_frames in E as [(d1 & o1 & gs1 & E & ->)|([?|?] & d1 & o2 & E)]; [|discriminate|discriminate]. rewrite (ip_frames _ _ _ _ _ _ _ E). exists n, ns. split; [reflexivity|cbn; lia].
Qed.
Lemma setup_frames t ns : forall d d' os w gs, setup_loop t ns d = (d', os, AWait w gs) -> exists n rest, gs = [FIp n; FSetupIp n rest] /\ (length rest < length ns)%nat.
Proof.
  induction ns as [|n ns IH]; intros d d' os w gs E; cbn [setup_loop] in E; [discriminate|]. destruct (dget Z.eqb n (d_nodes d)) as [ip|]; [|discriminate]. destruct (truthy ip).
  - destruct (IH _ _ _ _ _ E) as (n' & rest & -> & L). exists n', rest. split; [reflexivity|cbn; lia].
  - apply under_frames in E as [(d1 & o1 & gs1 & E & ->)|([?|?] & d1 & o2 & E)]; [|discriminate|discriminate]. rewrite (ip_frames _ _ _ _ _ _ _ E). exists n, ns. split; [reflexivity|cbn; lia].
Qed.
Lemma s_report n rest : shrinks (FReport n rest).
Proof.
  remember (length rest) as m eqn:L. revert n rest L. induction m as [m IH] using (well_founded_induction lt_wf). intros n rest ->. easy.
  destruct (report_frames _ _ _ _ _ _ _ E) as (n' & rest' & -> & LT). constructor; [apply s_ip|]. constructor; [|constructor]. exact (IH _ LT n' rest' eq_refl).
Qed.
Lemma s_setupip n rest : shrinks (FSetupIp n rest).
Proof.
  remember (length rest) as m eqn:L. revert n rest L. induction m as [m IH] using (well_founded_induction lt_wf). intros n rest ->. easy.
  destruct (setup_frames _ _ _ _ _ _ _ E) as (n' & rest' & -> & LT). constructor; [apply s_ip|]. constructor; [|constructor]. exact (IH _ LT n' rest' eq_refl).
Qed.
Lemma setup_shrinks t r d d' os w gs : setup_nodes t r d = (d', os, AWait w gs) -> Forall shrinks gs.
Proof.
  unfold Gateway.setup_nodes. destruct r as [[v|l]|e]; try discriminate. destruct v; try discriminate. intros E. destruct (setup_frames _ _ _ _ _ _ _ E) as (n & rest & -> & _).
  constructor; [apply s_ip|constructor; [apply s_setupip|constructor]].
Qed.
Lemma s_setup : shrinks FSetup.
Proof. apply shrink_by. intros t r d d' os w gs E. apply (setup_shrinks t r d d' os w gs). destruct r as [[?|?]|?]; exact E. Qed.
Lemma list_frames t d d' os w gs : start_list t d = (d', os, AWait w gs) -> gs = [FList].
Proof.
  unfold start_list. destruct (d_nodes d); [|discriminate]. destruct (new_msg _ _); [|discriminate]. destruct (sub _ _ _ _) as [[d1 o1] [r|w1 fs]] eqn:S; [discriminate|]. intros E. injection E as <- <- <- <-.
  rewrite (sub_frames _ _ _ _ _ _ _ _ S). reflexivity.
Qed.
Lemma s_dest : shrinks FDest.
Proof.
  easy; (apply under_frames in E as [(d1 & o1 & gs1 & E & ->)|(r & d1 & o2 & E)]; [rewrite (list_frames _ _ _ _ _ _ E); constructor; [apply s_list|constructor; [apply s_setup|constructor]]|exact (setup_shrinks _ _ _ _ _ _ _ E)]).
Qed.
Lemma s_listen : shrinks FListen.
Proof. easy; (apply under_frames in E as [(d1 & o1 & gs1 & E & ->)|(r & d1 & o2 & E)]; [rewrite (sub_frames _ _ _ _ _ _ _ _ E); constructor; [apply s_dest|constructor]|discriminate]). Qed.
Lemma s_connect2 : shrinks FConnect2.
Proof. easy; (injection E as <- <- <- <-; constructor; [apply s_listen|constructor]). Qed.
Lemma mode_frames t m tmo d d' os w gs : start_mode t m tmo d = (d', os, AWait w gs) -> gs = [FMode m].
Proof.
  unfold start_mode. destruct (sub _ _ _ _) as [[d1 o1] [r|w1 fs]] eqn:S; [discriminate|]. intros E. injection E as <- <- <- <-. rewrite (sub_frames _ _ _ _ _ _ _ _ S). reflexivity.
Qed.
Lemma s_connect1 : shrinks FConnect1.
Proof.
  easy; (apply under_frames in E as [(d1 & o1 & gs1 & E & ->)|([?|?] & d1 & o2 & E)]; [rewrite (mode_frames _ _ _ _ _ _ _ _ E); constructor; [apply s_mode|constructor; [apply s_connect2|constructor]]|injection E as <- <- <- <-; constructor; [apply s_listen|constructor]|discriminate]).
Qed.
Lemma shrinks_all f : shrinks f.
Proof. destruct f; auto using s_ip, s_open, s_link, s_send, s_modeset, s_mode, s_list, s_nm, s_report, s_setupip, s_setup, s_dest, s_listen, s_connect1, s_connect2. Qed.
Lemma next_acc fs : Acc next fs.
Proof.
  induction fs as [|f fs IH]; [|apply shrinks_all; exact IH]. constructor. intros gs (t & r & d & d' & os & w & E). discriminate.
Qed.

(** ** a call of a gateway that has not ended *)
Lemma open_waits es s tr t : gexec gw0 es s tr -> open_task tr t -> exists c w fs, nth_error (g_tasks s) t = Some (mkGT c (GWait w fs)) /\ held t w (g_d s) tr.
Proof.
  intros X ((n & c & J) & NR). destruct (called_call ord _ _ _ _ _ _ X J) as (p & N). destruct p as [w fs|r].
  - exists c, w, fs. split; [exact N|]. exact (proj1 (exec_held _ _ _ X) _ _ _ _ N).
  - exfalso. destruct (done_returned ord _ _ _ _ _ _ X N) as (m & Q). exact (NR _ _ Q).
Qed.
Lemma env_step s t c w fs r : nth_error (g_tasks s) t = Some (mkGT c (GWait w fs)) -> (match w with AwOpen l => exists k, conn_at l (g_d s) = Some k | AwListen => True | _ => False end) ->
  exists s' os r' d1 d o1 a, gstep s (GEnv t r) = Some (s', os) /\ unwind t r' fs d1 = (d, o1, a) /\ s' = mkG d (upd t (mkGT c (pc_of a)) (g_tasks s)) /\ incl (said t a) os.
Proof.
  intros N W. cbn [Gateway.gstep]. rewrite N. set (r' := match r with Ok _ => Ok (GV VNone) | Err e => Err e end).
  assert (Q : forall d1, exists s' os d o1 a, wake t w r' fs (mkG d1 (g_tasks s)) = (s', os) /\ unwind t r' fs d1 = (d, o1, a) /\ s' = mkG d (upd t (mkGT c (pc_of a)) (g_tasks s)) /\ incl (said t a) os).
  { intros d1. destruct (unwind t r' fs d1) as [[d o1] a] eqn:U. rewrite (wake_eq _ _ _ _ _ _ _ _ _ _ _ N U). do 5 eexists. split; [reflexivity|]. split; [reflexivity|]. split; [reflexivity|].
    apply incl_tl. apply incl_appr. apply incl_refl. }
  destruct w as [l u|l|]; [destruct W| |].
  - destruct W as (k & ->). match goal with |- context [mkG ?x (g_tasks s)] => destruct (Q x) as (s' & os & d & o1 & a & -> & U & E & I); exists s', os, r', x, d, o1, a; auto end.
  - destruct (Q (g_d s)) as (s' & os & d & o1 & a & E & U & E' & I). replace (mkG (g_d s) (g_tasks s)) with s in E by (destruct s; reflexivity). rewrite E. exists s', os, r', (g_d s), d, o1, a. auto.
Qed.
Lemma advance_at s dt l k : 0 <= dt -> conn_at l (g_d s) = Some k -> exists s', gstep s (GAdvance dt) = Some (s', []) /\ conn_at l (g_d s') = Some (tick dt k) /\ g_tasks s' = g_tasks s.
Proof.
  intros P K. cbn [Gateway.gstep]. destruct (Z.leb_spec 0 dt) as [_|]; [|lia]. eexists. split; [reflexivity|]. split; [|reflexivity]. destruct l as [i|]; cbn in *; [rewrite nth_error_map, K|injection K as <-]; reflexivity.
Qed.
Lemma held_runs s tr t l u : linked (g_d s) tr -> held t (AwCall l u) (g_d s) tr -> exists k evs, conn_at l (g_d s) = Some k /\ exec conn0 evs k (on_link l tr) /\ running (on_link l tr) u.
Proof.
  intros LK [(k & c & p & K & N & ND) _]. destruct (link_good _ _ _ _ LK K) as (evs & XL). exists k, evs. split; [exact K|]. split; [exact XL|]. eapply not_running_done; eassumption.
Qed.
Lemma alive es s tr t : gexec gw0 es s tr -> open_task tr t ->
  (forall r, gstep s (GEnv t r) <> None) \/
  exists l u, made tr t l u /\ running (on_link l tr) u /\ forall dt, allowance (on_link l tr) u <= dt -> exists s', gstep s (GAdvance dt) = Some (s', []) /\ (gstep s' (GConn l (EvTimer u)) <> None \/ gstep s' (GConn l (EvResume u)) <> None).
Proof.
  intros X O. destruct (open_waits _ _ _ _ X O) as (c & w & fs & N & H). destruct w as [l u|l|].
  - right. exists l, u. split; [exact (proj2 H)|]. destruct (held_runs _ _ _ _ _ (exec_linked _ _ _ _ X) H) as (k & evs & K & XL & R). split; [exact R|]. intros dt L.
    destruct (ConnLive.alive _ _ _ _ _ XL R L) as (k1 & S1 & P). pose proof (allowance_pos (on_link l tr) u) as AP. destruct (advance_at s dt l k ltac:(lia) K) as (s1 & G1 & K1 & _).
    exists s1. split; [exact G1|]. unfold tick in K1. rewrite S1 in K1.
    assert (Q : forall e, (forall x, e <> EvAdvance x) -> e <> EvConnect -> step k1 e <> None -> gstep s1 (GConn l e) <> None).
    { intros e NA NC ST. destruct (step k1 e) as [[k2 os]|] eqn:S; [|congruence]. rewrite (gconn_eq _ _ _ _ _ _ NA NC K1 S). destruct (returned os) as [[u0 r0]|]; [|discriminate].
      destruct (waiter_of _ _ _ _) as [[t0 fs0]|]; [|discriminate]. destruct (wake _ _ _ _ _). discriminate. }
    destruct P as [P|P]; [left|right]; (apply Q; [intros x; discriminate|discriminate|exact P]).
  - left. intros r. destruct (env_step s t c _ fs r N H) as (s' & os & _ & _ & _ & _ & _ & -> & _). discriminate.
  - left. intros r. destruct (env_step s t c _ fs r N I) as (s' & os & _ & _ & _ & _ & _ & -> & _). discriminate.
Qed.

(** ** it can be brought to its end *)
Lemma helps_incl t tr tr' e : incl tr tr' -> helps t tr e -> helps t tr' e.
Proof. intros I H. destruct e as [|c|l e| |]; cbn in *; try exact H. destruct e; try exact H; eapply made_incl; eassumption. Qed.
Lemma answers_app net es1 es2 : answers net es1 -> answers (fun i => net (length es1 + i)%nat) es2 -> answers net (es1 ++ es2).
Proof.
  intros A1 A2 i t r N. destruct (Nat.lt_ge_cases i (length es1)) as [LT|GE]; [rewrite nth_error_app1 in N by exact LT; exact (A1 _ _ _ N)|].
  rewrite nth_error_app2 in N by exact GE. rewrite (A2 _ _ _ N). f_equal. lia.
Qed.
Lemma gexec_app s0 es1 s1 tr1 es2 s2 tr2 : gexec s0 es1 s1 tr1 -> gexec s1 es2 s2 tr2 -> gexec s0 (es1 ++ es2) s2 (tr1 ++ tr2).
Proof. intros X1. induction 1 as [|es s tr e s' os X IH ST]; [rewrite !app_nil_r; exact X1|]. rewrite !app_assoc. econstructor; eassumption. Qed.
Lemma gexec_one s e s' os : gstep s e = Some (s', os) -> gexec s [e] s' (gstamp (g_now s) os).
Proof. intros ST. exact (GX_snoc ord s [] s [] e s' os (GX_nil ord s) ST). Qed.
(** what a waiting task waits for ends, and its frames are resumed *)
Definition resumed (t : nat) (fs : list frame) (s : gw) (c : gcall) (tr2 : gtrace) : Prop :=
  exists r d1 d o1 a, unwind t r fs d1 = (d, o1, a) /\ nth_error (g_tasks s) t = Some (mkGT c (pc_of a)) /\ forall o, In o (said t a) -> exists n, In (n, o) tr2.
Lemma awaited_ends t c fs net : forall es s tr w, gexec gw0 es s tr -> nth_error (g_tasks s) t = Some (mkGT c (GWait w fs)) ->
  exists es2 s2 tr2, gexec s es2 s2 tr2 /\ Forall (helps t (tr ++ tr2)) es2 /\ answers net es2 /\ resumed t fs s2 c tr2.
Proof.
  assert (CALL : forall m es s tr l u k, gexec gw0 es s tr -> nth_error (g_tasks s) t = Some (mkGT c (GWait (AwCall l u) fs)) -> conn_at l (g_d s) = Some k -> mu k u = m ->
    exists es2 s2 tr2, gexec s es2 s2 tr2 /\ Forall (helps t (tr ++ tr2)) es2 /\ answers net es2 /\ (forall i t r, nth_error es2 i <> Some (GEnv t r)) /\ resumed t fs s2 c tr2).
  { induction m as [m IH] using (well_founded_induction lt_wf). intros es s tr l u k X N K M. destruct (exec_held _ _ _ X) as [HH AP]. pose proof (HH _ _ _ _ N) as H.
    destruct (held_runs _ _ _ _ _ (exec_linked _ _ _ _ X) H) as (k0 & evs & K0 & XL & R). rewrite K in K0. injection K0 as <-. set (dt := allowance (on_link l tr) u).
    destruct (ConnLive.alive _ _ _ _ dt XL R ltac:(unfold dt; lia)) as (k1 & S1 & P). pose proof (allowance_pos (on_link l tr) u) as POS. destruct (advance_at s dt l k ltac:(unfold dt; lia) K) as (s1 & G1 & K1 & T1).
    unfold tick in K1. rewrite S1 in K1. pose proof (GX_snoc _ _ _ _ _ _ _ _ X G1) as X1. cbn [gstamp map] in X1. rewrite app_nil_r in X1.
    pose proof (exec_linked _ _ _ _ X1) as LK1. destruct (link_good _ _ _ _ LK1 K1) as (evs1 & XL1). destruct (exec_good _ _ _ XL1) as [GK1 _]. destruct (exec_good _ _ _ XL) as [GK _].
    assert (Q : exists e k2 os, SpecLive.own u e = true /\ step k1 e = Some (k2, os)).
    { destruct P as [P|P]; [exists (EvTimer u)|exists (EvResume u)]; destruct (step k1 _) as [[s2 os]|] eqn:E; try (elim P; reflexivity); exists s2, os; (split; [apply Nat.eqb_refl|first [reflexivity|assumption]]). }
    destruct Q as (e & k2 & os & O & S2). pose proof (step_mu _ _ _ _ _ u GK S1) as M1. pose proof (step_mu _ _ _ _ _ u GK1 S2) as M2. unfold weight in M1, M2. rewrite O in M2. cbn [SpecLive.own is_packet] in M1.
    assert (PK : is_packet e = false) by (destruct e; try discriminate O; reflexivity). rewrite PK in M2.
    assert (NA : (forall x, e <> EvAdvance x) /\ e <> EvConnect) by (split; [intros x|]; intros ->; discriminate). destruct NA as [NA NC].
    pose proof (gconn_eq _ _ _ _ _ _ NA NC K1 S2) as GE. rewrite <- T1 in N. destruct (exec_held _ _ _ X1) as [HH1 AP1].
    assert (HE : helps t tr (GConn l e)) by (destruct e; try discriminate O; cbn in O; apply Nat.eqb_eq in O; subst; exact (proj2 H)).
    assert (GX2 : forall s2 o2, gstep s1 (GConn l e) = Some (s2, o2) -> gexec s [GAdvance dt; GConn l e] s2 (gstamp (g_now s1) o2)).
    { intros s2 o2 G2. exact (gexec_app s [GAdvance dt] s1 [] [GConn l e] s2 _ (gexec_one _ _ _ _ G1) (gexec_one _ _ _ _ G2)). }
    assert (FF : forall x, Forall (helps t (tr ++ x)) [GAdvance dt; GConn l e]).
    { intros x. repeat constructor. eapply helps_incl; [|exact HE]. apply incl_appl. apply incl_refl. }
    assert (AA : answers net [GAdvance dt; GConn l e]) by (intros [|[|[|i]]] t0 r0 E; discriminate).
    assert (AN : forall i t r, nth_error [GAdvance dt; GConn l e] i <> Some (GEnv t r)) by (intros [|[|[|i]]] t0 r0 E; discriminate).
    destruct (returned os) as [[u' r]|] eqn:RT.
    - pose proof (own_ret _ _ _ _ _ _ _ _ GK1 S2 O RT) as ->. destruct (waiter_of l u 0 (g_tasks s1)) as [[t' fs']|] eqn:W; [|elim (waiter_none _ _ _ _ W _ _ _ N)].
      destruct (waiter_of_some _ _ _ _ _ _ W) as (c' & _ & N'). rewrite Nat.sub_0_r in N'. pose proof (AP1 _ _ _ _ _ _ _ _ N N') as <-. rewrite N in N'. injection N' as <- <-.
      destruct (unwind t (of_result r) fs (set_conn l k2 (g_d s1))) as [[d o1] a] eqn:U. rewrite (wake_eq _ _ _ _ _ _ _ _ _ _ _ N U) in GE.
      exists [GAdvance dt; GConn l e]. do 2 eexists. split; [apply GX2; exact GE|]. split; [apply FF|]. split; [exact AA|]. split; [exact AN|].
      exists (of_result r), (set_conn l k2 (g_d s1)), d, o1, a. split; [exact U|]. split; [cbn; rewrite nth_upd, Nat.eqb_refl, N; reflexivity|].
      intros o J. exists (g_now s1). apply in_map. apply in_or_app. right. right. apply in_or_app. right. exact J.
    - pose proof (GX2 _ _ GE) as XX. pose proof (GX_snoc _ _ _ _ _ _ _ _ X1 GE) as X2.
      destruct (IH (mu k2 u) ltac:(lia) _ _ _ l u k2 X2 N) as (es3 & s3 & tr3 & X3 & F3 & A3 & B3 & R3); [cbn [g_d]; rewrite at_set, same_link_refl by congruence; reflexivity|reflexivity|].
      exists ([GAdvance dt; GConn l e] ++ es3), s3. eexists. split; [exact (gexec_app _ _ _ _ _ _ _ XX X3)|]. split; [apply Forall_app; split; [apply FF|rewrite app_assoc; exact F3]|].
      assert (BB : forall i t r, nth_error ([GAdvance dt; GConn l e] ++ es3) i <> Some (GEnv t r)).
      { intros [|[|i]] t0 r0 E; [discriminate|discriminate|]. exact (B3 _ _ _ E). }
      split; [intros i t0 r0 E; elim (BB _ _ _ E)|]. split; [exact BB|]. destruct R3 as (r & d1 & d & o1 & a & U & T & J). exists r, d1, d, o1, a. split; [exact U|]. split; [exact T|].
      intros o Q. destruct (J _ Q) as (n & Q'). exists n. apply in_or_app. right. exact Q'. }
  intros es s tr w X N. pose proof (proj1 (exec_held _ _ _ X) _ _ _ _ N) as H.
  assert (ENV : (match w with AwOpen l => exists k, conn_at l (g_d s) = Some k | AwListen => True | _ => False end) ->
    exists es2 s2 tr2, gexec s es2 s2 tr2 /\ Forall (helps t (tr ++ tr2)) es2 /\ answers net es2 /\ resumed t fs s2 c tr2).
  { intros W. destruct (env_step s t c w fs (net O) N W) as (s' & os & r' & d1 & d & o1 & a & G & U & E & I). exists [GEnv t (net O)], s', (gstamp (g_now s) os).
    split; [apply gexec_one; exact G|]. split; [repeat constructor|]. split; [intros [|[|i]] t0 r0 Q; try discriminate; injection Q as _ <-; reflexivity|].
    exists r', d1, d, o1, a. split; [exact U|]. split; [rewrite E; cbn; rewrite nth_upd, Nat.eqb_refl, N; reflexivity|]. intros o J. exists (g_now s). apply in_map. apply I. exact J. }
  destruct w as [l u|l|]; [|exact (ENV H)|exact (ENV I)].
  destruct H as [(k & c0 & p & K & _) _]. destruct (CALL _ _ _ _ _ _ _ X N K eq_refl) as (es2 & s2 & tr2 & X2 & F2 & A2 & _ & R2). exists es2, s2, tr2. auto.
Qed.
Lemma waiting_ends t c fs : forall net es s tr w, gexec gw0 es s tr -> nth_error (g_tasks s) t = Some (mkGT c (GWait w fs)) ->
  exists es2 s2 tr2 n r, gexec s es2 s2 tr2 /\ Forall (helps t (tr ++ tr2)) es2 /\ answers net es2 /\ In (n, GRet t r) tr2.
Proof.
  induction (next_acc fs) as [fs _ IH]. intros net es s tr w X N. destruct (awaited_ends t c fs net _ _ _ _ X N) as (es1 & s1 & tr1 & X1 & F1 & A1 & r & d1 & d & o1 & a & U & N1 & J).
  destruct a as [r'|w' gs].
  - destruct (J (GRet t r') (or_introl eq_refl)) as (n & Q). exists es1, s1, tr1, n, r'. auto.
  - assert (NX : next gs fs) by (exists t, r, d1, d, o1, w'; exact U). pose proof (gexec_app _ _ _ _ _ _ _ X X1) as X01.
    destruct (IH gs NX (fun i => net (length es1 + i)%nat) _ _ _ w' X01 N1) as (es2 & s2 & tr2 & n & r2 & X2 & F2 & A2 & Q).
    exists (es1 ++ es2), s2, (tr1 ++ tr2), n, r2. split; [exact (gexec_app _ _ _ _ _ _ _ X1 X2)|]. split; [|split; [apply answers_app; assumption|apply in_or_app; right; exact Q]].
    rewrite app_assoc. apply Forall_app. split; [|exact F2]. eapply Forall_impl; [|exact F1]. intros e HE. eapply helps_incl; [|exact HE]. apply incl_appl. apply incl_refl.
Qed.
Lemma ends es s tr t net : gexec gw0 es s tr -> open_task tr t ->
  exists es2 s2 tr2 n r, gexec s es2 s2 tr2 /\ Forall (helps t (tr ++ tr2)) es2 /\ answers net es2 /\ In (n, GRet t r) tr2.
Proof. intros X O. destruct (open_waits _ _ _ _ X O) as (c & w & fs & N & _). exact (waiting_ends t c fs net _ _ _ _ X N). Qed.
End Live.
