(** Network management requests and their sequence numbers (C40). *)
From Coq Require Import String ZArith List Bool Lia ZifyBool ZifyNat.
From Verif Require Import Py BitStream Schema Registry Codec SpecBits BitLemmas WriterLemmas SpecWire CodecProofs Waiter Conn SpecConn ConnLemmas ConnPacket ConnAck ConnInv ConnCases ConnProps ConnCut
  Gateway SpecGateway GatewayProofs GatewayLinks GatewayStory.
From Verif Require EncodeProofs ReportProofs.
Import ListNotations.
Open Scope list_scope.
Open Scope string_scope.
Open Scope list_scope.
Open Scope Z_scope.

(** ** the socket *)
Definition upat (l : option nat) (d : gdata) : bool := match conn_at l d with Some k => c_up k | None => false end.
Lemma upat_set l l' k k' d : conn_at l d = Some k -> upat l' (set_conn l k' d) = if same_link l' l then c_up k' else upat l' d.
Proof.
  intros E. unfold upat. destruct l as [i|], l' as [j|]; cbn in *; try reflexivity.
  rewrite nth_upd, E. destruct (Nat.eqb_spec i j) as [->|NE]; [rewrite Nat.eqb_refl; reflexivity|]. destruct (Nat.eqb_spec j i); [congruence|reflexivity].
Qed.
Lemma upat_same l l' k k' d : conn_at l d = Some k -> c_up k' = c_up k -> upat l' (set_conn l k' d) = upat l' d.
Proof. intros E U. rewrite (upat_set _ _ _ _ _ E). destruct (same_link l' l) eqn:S; [|reflexivity]. apply same_link_spec in S as ->. unfold upat. rewrite E. exact U. Qed.
Lemma call_up k c k' xs : step k (EvCall c) = Some (k', xs) -> c_up k' = c_up k.
Proof. intros S. apply call_case in S. inversion S; reflexivity. Qed.
Lemma moves_up t d os d' l : moves t d os d' -> upat l d' = upat l d.
Proof.
  induction 1 as [d|d o d' os H _ IH|d l0 k c u k' os d' os' E ST U M IH|d n0 a d' os _ IH|d nm ctl nodes conns d' os _ IH]; try assumption; [reflexivity| |].
  - rewrite IH. exact (upat_same _ _ _ _ _ E (call_up _ _ _ _ ST)).
  - rewrite IH. destruct l as [i|]; [|reflexivity]. unfold upat. cbn. rewrite nth_snoc. destruct (Nat.eqb_spec i (length (d_links d))) as [->|]; [|reflexivity].
    rewrite (proj2 (nth_error_None (d_links d) (length (d_links d))) (le_n _)). reflexivity.
Qed.
Lemma step_keeps_up k tr e k' os : good k tr -> e <> EvConnect -> step k e = Some (k', os) -> c_up k' = c_up k.
Proof.
  intros G NE ST. destruct (good_case _ _ _ _ _ G ST); subst; try reflexivity; [congruence|]. destruct (packet_frame_of _ _ _ _ _ G H0 H1) as (_ & [] & _). assumption.
Qed.
Lemma opened_app l a b : opened l (a ++ b) <-> opened l a \/ opened l b.
Proof.
  unfold opened. split; [intros (n & t & r & J); apply in_app_or in J as [J|J]; eauto 6|intros [(n & t & r & J)|(n & t & r & J)]; exists n, t, r; apply in_or_app; auto].
Qed.
Lemma opened_stamp l n os : opened l (gstamp n os) <-> exists t r, In (GBack t (AwOpen l) (Ok r)) os.
Proof.
  split; [intros (m & t & r & J); apply in_map_iff in J as (o & E & J); injection E as <- ->; eauto|]. intros (t & r & J). exists n, t, r. apply in_map. exact J.
Qed.
Section Nm.
Variable ord : list Z -> list Z.
Lemma grun_app es1 es2 : forall s, grun ord s (es1 ++ es2) = match grun ord s es1 with Some (s1, tr1) => match grun ord s1 es2 with Some (s2, tr2) => Some (s2, tr1 ++ tr2) | None => None end | None => None end.
Proof.
  induction es1 as [|e es1 IH]; intros s; cbn [app grun]; [destruct (grun ord s es2) as [[]|]; reflexivity|].
  destruct (gstep ord s e) as [[s1 os]|]; [|reflexivity]. rewrite IH. destruct (grun ord s1 es1) as [[s2 tr2]|]; [|reflexivity]. destruct (grun ord s2 es2) as [[s3 tr3]|]; [|reflexivity]. rewrite app_assoc. reflexivity.
Qed.
Lemma grun_exec s0 es : forall s tr, grun ord s0 es = Some (s, tr) -> gexec ord s0 es s tr.
Proof.
  induction es as [|e es IH] using rev_ind; intros s tr H; [injection H as <- <-; constructor|].
  rewrite grun_app in H. destruct (grun ord s0 es) as [[s1 tr1]|]; [|discriminate]. cbn in H. destruct (gstep ord s1 e) as [[s2 os]|] eqn:E; [|discriminate].
  injection H as <- <-. rewrite app_nil_r. econstructor; [apply IH; reflexivity|exact E].
Qed.
Lemma spawn_up c s s' os l : spawn ord c s = (s', os) -> upat l (g_d s') = upat l (g_d s) /\ forall t w r, ~ In (GBack t w r) os.
Proof.
  intros E. destruct (start ord (length (g_tasks s)) c (g_d s)) as [[d o1] a] eqn:S. rewrite (spawn_eq _ _ _ _ _ _ S) in E. injection E as <- <-. cbn [g_d].
  pose proof (good_start ord (length (g_tasks s)) c (g_d s)) as G. rewrite S in G. split; [exact (moves_up _ _ _ _ l G)|].
  pose proof (start_ours _ _ _ _ _ _ _ S) as F. rewrite Forall_forall in F. intros t w r [J|J]; [discriminate|]. apply in_app_or in J as [J|J]; [exact (F _ J)|].
  destruct a; cbn in J; [destruct J as [J|[]]; discriminate|exact J].
Qed.
Lemma wake_up t w r fs s s' os l : wake ord t w r fs s = (s', os) -> upat l (g_d s') = upat l (g_d s) /\ forall t' w' r', In (GBack t' w' r') os <-> (t' = t /\ w' = w /\ r' = r).
Proof.
  intros E. unfold wake in E. pose proof (good_unwind ord t fs r (g_d s)) as G. destruct (unwind ord t r fs (g_d s)) as [[d o1] a] eqn:U. injection E as <- <-. cbn [g_d].
  split; [exact (moves_up _ _ _ _ l G)|]. pose proof (unwind_ours _ _ _ _ _ _ _ _ U) as F. rewrite Forall_forall in F. intros t' w' r'. split.
  - intros [J|J]; [injection J as -> -> ->; auto|]. exfalso. apply in_app_or in J as [J|J]; [exact (F _ J)|]. destruct a; cbn in J; [destruct J as [J|[]]; discriminate|exact J].
  - intros (-> & -> & ->). left. reflexivity.
Qed.
Lemma no_task_back pre t w r : Forall no_task pre -> ~ In (GBack t w r) pre.
Proof. intros F J. rewrite Forall_forall in F. specialize (F _ J). discriminate. Qed.
Lemma exec_socket es s tr l : gexec ord gw0 es s tr -> (upat l (g_d s) = true <-> opened l tr).
Proof.
  induction 1 as [|es s tr e s' os X IH ST]; [destruct l as [[|]|]; cbn; split; try discriminate; intros (? & ? & ? & []) |].
  rewrite opened_app, <- IH, opened_stamp. clear IH. destruct (exec_linked _ _ _ _ X) as [_ XL].
  assert (SAME : upat l (g_d s') = upat l (g_d s) -> (forall t r, ~ In (GBack t (AwOpen l) (Ok r)) os) -> upat l (g_d s') = true <-> upat l (g_d s) = true \/ exists t r, In (GBack t (AwOpen l) (Ok r)) os).
  { intros -> N. split; [auto|]. intros [H|(t & r & J)]; [exact H|elim (N _ _ J)]. }
  destruct e as [dt|c|l0 e|t r|bs addr]; cbn [gstep] in ST.
  - destruct (0 <=? dt) eqn:P; [|discriminate]. injection ST as <- <-. apply SAME; [|intros ? ? []]. cbn [g_d].
    assert (TK : forall k, c_up (tick dt k) = c_up k) by (intros k; unfold tick; cbn [step]; rewrite P; reflexivity).
    unfold upat. destruct l as [i|]; cbn [conn_at d_links d_c]; [|apply TK]. rewrite nth_error_map. destruct (nth_error (d_links (g_d s)) i); cbn; [apply TK|reflexivity].
  - assert (E : Some (spawn ord c s) = Some (s', os)) by (destruct c; try exact ST; discriminate). injection E as E. destruct (spawn_up _ _ _ _ l E) as [U N]. apply SAME; [exact U|]. intros t r. apply N.
  - assert (NE : e <> EvConnect) by (intros ->; discriminate).
    assert (E' : match conn_at l0 (g_d s) with None => None | Some k => match step k e with None => None | Some (k', os) =>
        match returned os with None => Some (mkG (set_conn l0 k' (g_d s)) (g_tasks s), flat_map (lift l0 (g_d s)) os)
        | Some (u, r) => match waiter_of l0 u 0 (g_tasks s) with None => Some (mkG (set_conn l0 k' (g_d s)) (g_tasks s), flat_map (lift l0 (g_d s)) os)
          | Some (t, fs) => let (s2, os2) := wake ord t (AwCall l0 u) (of_result r) fs (mkG (set_conn l0 k' (g_d s)) (g_tasks s)) in Some (s2, flat_map (lift l0 (g_d s)) os ++ os2) end end end end = Some (s', os))
      by (destruct e; try exact ST; discriminate). clear ST.
    destruct (conn_at l0 (g_d s)) as [k|] eqn:K; [|discriminate]. destruct (step k e) as [[k' os0]|] eqn:S; [|discriminate].
    destruct (XL l0) as (evs & X0). unfold cat in X0. rewrite K in X0. destruct (exec_good _ _ _ X0) as [G _]. pose proof (step_keeps_up _ _ _ _ _ G NE S) as KU.
    pose proof (upat_same l0 l k k' (g_d s) K KU) as U1. pose proof (lift_no_task l0 (g_d s) os0) as NT.
    destruct (returned os0) as [[u r]|]; [destruct (waiter_of l0 u 0 (g_tasks s)) as [[t fs]|]|].
    2,3: (injection E' as <- <-; apply SAME; [exact U1|intros t' r'; apply no_task_back; exact NT]).
    destruct (wake ord t (AwCall l0 u) (of_result r) fs _) as [s2 os2] eqn:W. injection E' as <- <-. destruct (wake_up _ _ _ _ _ _ _ l W) as [U2 B]. apply SAME; [rewrite U2; exact U1|].
    intros t' r' J. apply in_app_or in J as [J|J]; [exact (no_task_back _ _ _ _ NT J)|]. apply B in J as (_ & J & _). discriminate.
  - destruct (nth_error (g_tasks s) t) as [[c [w fs|x]]|] eqn:N; [|discriminate|discriminate]. destruct w as [l0 u|l0|]; [discriminate| |].
    + destruct (conn_at l0 (g_d s)) as [k|] eqn:K; [|discriminate]. destruct r as [[]|ex].
      * cbn [step] in ST. injection ST as W. destruct (wake_up _ _ _ _ _ _ _ l W) as [U2 B]. rewrite U2. cbn [g_d]. rewrite (upat_set _ _ _ _ _ K). destruct (same_link l l0) eqn:SL.
        -- apply same_link_spec in SL as ->. cbn. split; [|reflexivity]. intros _. right. exists t, (GV VNone). apply B. auto.
        -- split; [auto|]. intros [H|(t' & r' & J)]; [exact H|]. apply B in J as (_ & J & _). injection J as ->. rewrite same_link_refl in SL. discriminate.
      * injection ST as W. destruct (wake_up _ _ _ _ _ _ _ l W) as [U2 B]. apply SAME; [exact U2|]. intros t' r' J. apply B in J as (_ & _ & J). discriminate.
    + injection ST as W. destruct (wake_up _ _ _ _ _ _ _ l W) as [U2 B]. apply SAME; [exact U2|]. intros t' r' J. apply B in J as (_ & J & _). discriminate.
  - destruct (forallb is_byte bs); [|discriminate]. pose proof (unsol_no_task bs addr (g_d s)) as NT. destruct (unsolicited bs addr (g_d s)) as [os1 [v|]]; cbn [fst] in NT.
    + destruct (spawn ord (GReport v) s) as [s2 os2] eqn:W. injection ST as <- <-. destruct (spawn_up _ _ _ _ l W) as [U N]. apply SAME; [exact U|].
      intros t r [J|J]; [discriminate|]. apply in_app_or in J as [J|J]; [exact (no_task_back _ _ _ _ NT J)|exact (N _ _ _ J)].
    + injection ST as <- <-. apply SAME; [reflexivity|]. intros t r [J|J]; [discriminate|]. exact (no_task_back _ _ _ _ NT J).
Qed.

(** ** sequence numbers *)
Definition nmc (os : list gobs) : Z := zlen (filter nm_request os).
Lemma nmc_app a b : nmc (a ++ b) = nmc a + nmc b.
Proof. unfold nmc. rewrite filter_app. unfold zlen. rewrite app_length. lia. Qed.
Lemma nmc_cons o l : nmc (o :: l) = (if nm_request o then 1 else 0) + nmc l.
Proof. unfold nmc. cbn [filter]. destruct (nm_request o); unfold zlen; cbn [length]; lia. Qed.
Lemma nmc_at l xs : nmc (map (GAt l) xs) = 0.
Proof. induction xs; [reflexivity|]. cbn [map]. rewrite nmc_cons, IHxs. reflexivity. Qed.
Lemma nmc_no_task os : Forall no_task os -> nmc os = 0.
Proof. induction 1 as [|o os H _ IH]; [reflexivity|]. rewrite nmc_cons, IH. destruct o; try reflexivity; discriminate. Qed.
Lemma nmc_said t a : nmc (said t a) = 0. Proof. destruct a; reflexivity. Qed.
Definition acct (d : gdata) (g : go) : Prop := d_nm (gd g) = d_nm d + nmc (gos g).
Ltac acc := unfold acct; cbn; unfold nmc, zlen; cbn; lia.
Lemma acct_ret r d : acct d (ret r d). Proof. acc. Qed.
Lemma acct_sub_gen t l c d : d_nm (gd (sub t l c d)) = d_nm d /\ (nmc (gos (sub t l c d)) = 0 \/ exists u, nmc (gos (sub t l c d)) = nmc [GSub t l u c]).
Proof.
  destruct (sub t l c d) as [[d' os] a] eqn:E. cbn. destruct (sub_own _ _ _ _ _ _ _ E) as [(_ & _ & -> & ->)|(k & k' & xs & _ & _ & -> & -> & _)]; [auto|].
  split; [destruct l; reflexivity|]. right. exists (length (c_tasks k)). rewrite !nmc_cons, nmc_at. reflexivity.
Qed.
Lemma acct_sub t l c d : (forall u, nm_request (GSub t l u c) = false) -> acct d (sub t l c d).
Proof.
  intros Q. unfold acct. destruct (acct_sub_gen t l c d) as [-> [->|(u & ->)]]; [lia|]. rewrite nmc_cons, Q. unfold nmc, zlen. cbn. lia.
Qed.
Lemma acct_under d g fs k : acct d g -> (forall r d', acct d' (k r d')) -> acct d (under g fs k).
Proof.
  intros G K. destruct g as [[d1 os] a]. unfold under, acct in *. cbn in G. destruct a as [r|w gs]; [|exact G].
  specialize (K r d1). destruct (k r d1) as [[d2 os2] a2]. cbn in *. rewrite nmc_app. lia.
Qed.
Lemma acct_framed d g fs : acct d g -> acct d (match g with (d', os, AWait w gs) => (d', os, AWait w (gs ++ fs)) | (d', os, ARet r) => (d', os, ARet r) end).
Proof. destruct g as [[d' os] [r|w gs]]; auto. Qed.
Lemma acct_ip t n d : acct d (start_ip t n d).
Proof.
  unfold start_ip. destruct (solicit n) as [bs|e]; [|apply acct_ret]. pose proof (acct_sub t None (CWait adv_hid 3000) d ltac:(reflexivity)) as G. unfold acct in *.
  destruct (sub t None (CWait adv_hid 3000) d) as [[d' os] [r|w fs]]; cbn in *; rewrite nmc_cons; exact G.
Qed.
Lemma acct_report_loop t ns : forall d, acct d (report_loop t ns d).
Proof.
  induction ns as [|n ns IH]; intros d; cbn [report_loop]; [acc|]. destruct (dmem Z.eqb n (d_nodes d)); [apply IH|].
  apply acct_under; [apply acct_ip|]. intros [?|?] ?; apply acct_ret.
Qed.
Lemma acct_setup_loop t ns : forall d, acct d (setup_loop t ns d).
Proof.
  induction ns as [|n ns IH]; intros d; cbn [setup_loop]; [apply acct_ret|]. destruct (dget Z.eqb n (d_nodes d)) as [ip|]; [|apply acct_ret]. destruct (truthy ip); [apply IH|].
  apply acct_under; [apply acct_ip|]. intros [?|?] ?; apply acct_ret.
Qed.
Lemma acct_mode t m tmo d : acct d (start_mode t m tmo d).
Proof. unfold start_mode. apply (acct_framed d (sub t None _ d) [FMode m]). apply acct_sub. reflexivity. Qed.
Lemma acct_list t d : acct d (start_list t d).
Proof.
  unfold start_list. destruct (d_nodes d); [|apply acct_ret]. cbn [new_msg init_attrs]. cbv zeta.
  match goal with |- context [new_msg ?s ?kw] => change (new_msg s kw) with (Ok (VObj (CMsg m_NetworkManagementProxy_NodeListGet) [("seqNo", VI false 1 (d_nm d + 1))])) end. cbv iota.
  set (c := CSendRecv _ 0 0 _ 3000). unfold acct. destruct (sub t None c (set_nm (d_nm d + 1) d)) as [[d' os] a] eqn:E.
  destruct (sub_own _ _ _ _ _ _ _ E) as [(N & _)|(k & k' & xs & _ & _ & -> & -> & _)]; [discriminate|].
  destruct a; cbn [gd gos fst snd]; rewrite nmc_cons, nmc_at; reflexivity.
Qed.
Lemma acct_setup t r d : acct d (setup_nodes ord t r d).
Proof. unfold setup_nodes. destruct r as [[v|l]|e]; try apply acct_ret. destruct v; try apply acct_ret. apply acct_setup_loop. Qed.
Lemma acct_link t n d : acct d (start_link t n d).
Proof. unfold start_link. destruct (dget Z.eqb n (d_conns d)); [apply acct_ret|]. apply acct_under; [apply acct_ip|]. intros; apply acct_ret. Qed.
Lemma acct_nm_same d d' g : d_nm d' = d_nm d -> acct d' g -> acct d g. Proof. unfold acct. intros ->. auto. Qed.
Lemma acct_frame t f r d : acct d (frame_step ord t f r d).
Proof.
  destruct f, r as [[v|l']|e]; cbn [frame_step]; try (destruct e; match goal with |- acct _ (ret _ _) => apply acct_ret end);
    try match goal with |- acct _ (ret _ _) => apply acct_ret | |- acct _ (setup_nodes _ _ _ _) => apply acct_setup end.
  - acc.
  - destruct v; try apply acct_ret. acc.
  - acc.
  - acc.
  - apply acct_sub. reflexivity.
  - eapply acct_nm_same; [|apply acct_report_loop]. reflexivity.
  - destruct (is_mode v mode); [apply acct_ret|]. apply acct_under; [|intros; apply acct_ret]. apply acct_sub. reflexivity.
  - destruct (getattr v "nodes"); acc.
  - apply acct_under; [apply acct_mode|]. intros [?|?] ?; apply acct_ret || acc.
  - apply acct_under; [apply acct_mode|]. intros [?|?] ?; apply acct_ret || acc.
  - acc.
  - acc.
  - apply acct_under; [apply acct_sub; reflexivity|]. intros; apply acct_ret.
  - apply acct_under; [apply acct_sub; reflexivity|]. intros; apply acct_ret.
  - apply acct_under; [apply acct_list|]. intros; apply acct_setup.
  - apply acct_under; [apply acct_list|]. intros; apply acct_setup.
  - eapply acct_nm_same; [|apply acct_setup_loop]. reflexivity.
Qed.
Lemma acct_unwind t fs : forall r d, acct d (unwind ord t r fs d).
Proof.
  induction fs as [|f fs IH]; intros r d; cbn [unwind]; [apply acct_ret|]. pose proof (acct_frame t f r d) as G.
  destruct (frame_step ord t f r d) as [[d' os] [r'|w gs]]; [|exact G]. specialize (IH r' d'). destruct (unwind ord t r' fs d') as [[d'' os'] a].
  unfold acct in *. cbn in *. rewrite nmc_app. lia.
Qed.
(** messages of a request, and its first field *)
Lemma nm_first q k m : nm_msg q k = Ok m -> exists s d rest, m = VObj (CMsg s) d /\ In s registry /\ s_attrs s = mkA "seqNo" (TInt false 1) None None :: rest /\ aget "seqNo" d = Some (VI false 1 k) /\
  (s_cls s =? 82) && (s_cmd s =? 1) = false.
Proof.
  destruct q; cbn [nm_msg]; intros E.
  2: { unfold new_msg in E. cbn in E. destruct (init_coerce TDsk dsk) as [v|]; cbn in E; [|discriminate].
       injection E as <-. eexists _, _, _. split; [reflexivity|]. split; [in_registry|]. split; [reflexivity|]. split; reflexivity. }
  all: cbn in E; injection E as <-; eexists _, _, _; split; [reflexivity|]; split; [in_registry|]; split; [reflexivity|]; split; reflexivity.
Qed.
Lemma start_nm_acct t q d : d_nm (gd (start_nm t q d)) = d_nm d + 1 /\ nmc (gos (start_nm t q d)) = 0.
Proof.
  unfold start_nm. cbv zeta. destruct (nm_msg q (d_nm d + 1)) as [m|e] eqn:M; [|split; reflexivity].
  destruct (nm_first _ _ _ M) as (s & a & rest & -> & _ & _ & _ & NQ).
  match goal with |- context [sub t None ?c ?x] => pose proof (acct_sub t None c x) as A end. unfold acct in A.
  match goal with |- context [sub t None ?c ?x] => pose proof (acct_sub_gen t None c x) as [B _] end.
  match goal with |- context [sub t None ?c ?x] => destruct (sub t None c x) as [[d' os] [r|w fs]] end; cbn [gd gos fst snd d_nm set_nm] in *;
    (assert (Q : nmc os = 0) by (rewrite B in A; enough (d_nm d + 1 = d_nm d + 1 + nmc os) by lia; apply A; intros u; destruct (nm_wait q) as [[s0 tmo]|]; [exact NQ|reflexivity]));
    split; assumption.
Qed.
Lemma start_acct t c d : d_nm (gd (start ord t c d)) = d_nm d + nmc (GCalled t c :: gos (start ord t c d)).
Proof.
  rewrite nmc_cons. destruct c; cbn [start nm_request]; [destruct (start_nm_acct t q d); lia| | | | | | |]; rewrite Z.add_0_l.
  - apply acct_list. - apply acct_ip. - apply acct_link.
  - apply acct_under; [apply acct_link|]. intros [[?|?]|?] ?; try apply acct_ret. apply acct_sub. reflexivity.
  - unfold start_report. destruct nodes; try apply acct_ret. eapply acct_nm_same; [|apply acct_report_loop]. reflexivity.
  - apply acct_mode.
  - acc.
Qed.
Lemma nm_trace a n os : nm_requests (a ++ gstamp n os) = nm_requests a + nmc os.
Proof. unfold nm_requests, nmc, gstamp. rewrite map_app, filter_app, map_map. cbn [snd]. rewrite map_id. unfold zlen. rewrite app_length. lia. Qed.
Lemma exec_nm es s tr : gexec ord gw0 es s tr -> d_nm (g_d s) = nm_requests tr.
Proof.
  induction 1 as [|es s tr e s' os X IH ST]; [reflexivity|]. rewrite nm_trace, <- IH. clear IH.
  destruct (step_case _ _ _ _ _ ST) as [e s' os T (SN & _) F|e c d os a pre S F _|e t c w fs r d1 d os a pre N (SN & _) B F U].
  - rewrite (nmc_no_task _ F), SN. lia.
  - pose proof (start_acct (length (g_tasks s)) c (g_d s)) as A. rewrite S in A. cbn [gd gos fst snd g_d] in *. rewrite A, !nmc_app, !nmc_cons, nmc_app, nmc_said, (nmc_no_task _ F). lia.
  - pose proof (acct_unwind t fs r d1) as A. rewrite U in A. unfold acct in A. cbn [gd gos fst snd g_d] in *. rewrite A, !nmc_app, !nmc_cons, nmc_app, nmc_said, (nmc_no_task _ F), SN. cbn [nm_request]. lia.
Qed.

(** ** what a request sends *)
Local Ltac same_ty := let a := fresh in let I := fresh in let N := fresh in intros a I N; revert N; cbn in I;
  repeat (destruct I as [<-|I]; [cbn; intros N; first [discriminate N|reflexivity]|]); contradiction I.
Local Ltac arg := first [apply AB_int|apply AB_ub|apply AB_bits|apply AB_res|apply AB_flag|apply AB_bytes|apply AB_ip]; try (cbn; lia).
Local Ltac all_args := repeat first [ eapply AR_set; [reflexivity|reflexivity|arg|same_ty|] | eapply AR_unset; [reflexivity|cbn [a_ty]; apply DB_res|] ]; try apply AR_nil.
Lemma nm_encodes q k : nm_valid q -> byte k -> exists s d, nm_msg q k = Ok (VObj (CMsg s) d) /\ encodes (VObj (CMsg s) d) (bits_of (nm_bytes q k)) /\ bytes_ok (nm_bytes q k).
Proof.
  intros V K. destruct q; cbn [nm_msg nm_valid nm_bytes] in *; unfold byte in *.
  2: { destruct V as (L & bs & -> & LB & FB).
       assert (A : args m_NetworkManagementInclusion_NodeAddDSKSet [("seqNo", VInt k); ("accept", VBool accept); ("inputDSKLength", VInt len); ("dsk", VPBytes bs)]
         (s_attrs m_NetworkManagementInclusion_NodeAddDSKSet) (nbits 8 k ++ [accept] ++ repeat false 3 ++ nbits 4 len ++ bits_of bs ++ [])).
       { cbn [s_attrs m_NetworkManagementInclusion_NodeAddDSKSet]. all_args. eapply AR_set; [reflexivity|reflexivity|apply AB_dsk; [exact FB|exact LB]|same_ty|]. apply AR_nil. }
       destruct (new_msg_encodes m_NetworkManagementInclusion_NodeAddDSKSet _ _ ltac:(in_registry) A) as (d & E & EN & _). do 2 eexists. split; [exact E|].
       assert (B : bytes_ok ([52; 20; k; (if accept then 128 else 0) + len] ++ bs)).
       { apply bytes_ok_app. split; [|exact FB]. repeat (constructor; [destruct accept; lia|]). constructor. }
       split; [|exact B]. refine (eq_ind _ (encodes _) EN _ _). unfold bits_of. rewrite flat_map_app. cbn [flat_map app]. rewrite app_nil_r.
       assert (X : nbits 8 ((if accept then 128 else 0) + len) = accept :: false :: false :: false :: nbits 4 len).
       { destruct accept; assert (C : len = 0 \/ len = 1 \/ len = 2 \/ len = 3 \/ len = 4 \/ len = 5 \/ len = 6 \/ len = 7 \/ len = 8 \/ len = 9 \/ len = 10 \/ len = 11 \/ len = 12 \/ len = 13 \/ len = 14 \/ len = 15) by lia;
           repeat (destruct C as [->|C]; [reflexivity|]); subst; reflexivity. }
       rewrite X. rewrite <- ?app_assoc. reflexivity. }
  all: match goal with |- context [new_msg ?s ?kw] => let A := fresh in eassert (A : args s kw (s_attrs s) _) by (cbn [s_attrs s]; all_args);
      destruct (new_msg_encodes s kw _ ltac:(in_registry) A) as (d & E & EN & _); exists s, d; split; [exact E|]; split;
       [refine (eq_ind _ (encodes _) EN _ _)|repeat (constructor; [try destruct csa; try destruct accept; lia|]); constructor] end.
  all: cbn [bits_of flat_map s_cls s_cmd].
  all: try reflexivity.
  - destruct csa, accept; reflexivity.
  - rewrite (ReportProofs.nbits_8_7 e) by tauto. reflexivity.
Qed.
(** ** a command whose first field overflows *)
Lemma first_overflow s d rest k : In s registry -> s_attrs s = mkA "seqNo" (TInt false 1) None None :: rest -> aget "seqNo" d = Some (VI false 1 k) -> 256 <= k ->
  compose (VObj (CMsg s) d) = Err EOverflow.
Proof.
  intros Hs EA G K. destruct (EncodeProofs.registry_cls_bytes s Hs) as [C1 C2]. cbn [compose]. unfold compose_with.
  destruct (addBytes_ok false 1 (s_cls s) new_writer [] winv_new eq_refl C1) as (w1 & E1 & W1 & S1).
  change (Z.of_nat 1) with 1 in E1. rewrite E1. cbn [bind].
  destruct (addBytes_ok false 1 (s_cmd s) w1 _ W1 S1 C2) as (w2 & E2 & W2 & S2).
  change (Z.of_nat 1) with 1 in E2. rewrite E2. cbn [bind]. rewrite EA. cbn [compose_attrs]. unfold compose_attr at 1. cbn [a_name a_compose a_ty]. rewrite G. cbn [has_serialize].
  rewrite (EncodeProofs.dget_sers _ _ _ G). cbn [serialize serialize_simple]. unfold addBytes. rewrite to_bytes_overflow; [reflexivity|]. unfold fits. change (2 ^ (8 * Z.of_nat 1)) with 256. lia.
Qed.
Lemma send_fails sq s d e : 0 <= sq < 256 -> compose (VObj (CMsg s) d) = Err e -> send_bytes sq 0 0 (VObj (CMsg s) d) = Err e.
Proof.
  intros Q E. cbn [compose] in E. unfold send_bytes. unfold new_msg, send_kw.
  match goal with |- context [init_attrs ?l ?kw []] => let x := eval cbn in (init_attrs l kw []) in change (init_attrs l kw []) with x end. cbn [bind compose].
  unfold compose_with. unfold sers_of. cbn [map].
  assert (AB : forall w, addBytes sq (Z.of_nat 1) false w = Ok (BitStream.mkW (BitStream.w_buf w ++ [sq]) 0)).
  { intros w. unfold addBytes, to_bytes. change (Z.of_nat 1 <? 0) with false. cbv iota. cbn [andb]. replace ((0 <=? sq) && (sq <? 2 ^ (8 * Z.of_nat 1))) with true by (change (2 ^ (8 * Z.of_nat 1)) with 256; lia).
    change (Z.to_nat (Z.of_nat 1)) with 1%nat. cbn [be_bytes app bind]. rewrite Z.mod_small by lia. reflexivity. }
  cbn -[to_bytes compose_with addBytes]. unfold sers_of in E. rewrite E. change (addBytes 35 1 false new_writer) with (Ok (BitStream.mkW [35] 0)). cbn [bind].
  change (addBytes 2 1 false (BitStream.mkW [35] 0)) with (Ok (BitStream.mkW [35; 2] 0)). cbn [bind].
  repeat match goal with |- context [addBits ?a ?b (BitStream.mkW ?l ?z)] => let x := eval vm_compute in (addBits a b (BitStream.mkW l z)) in change (addBits a b (BitStream.mkW l z)) with x; cbn [bind] end.
  rewrite AB. cbn [bind BitStream.w_buf app].
  repeat match goal with |- context [addBits ?a ?b (BitStream.mkW ?l ?z)] => let x := eval vm_compute in (addBits a b (BitStream.mkW l z)) in change (addBits a b (BitStream.mkW l z)) with x; cbn [bind] end.
  reflexivity.
Qed.

(** ** the calls *)
Lemma no_writes_at l os : (forall o, In o os -> writes o = false) -> filter gwrites (map (GAt l) os) = [].
Proof. induction os as [|o os IH]; intros H; [reflexivity|]. cbn. pose proof (H o (or_introl eq_refl)) as W. destruct o; try discriminate; apply IH; intros; apply H; right; assumption. Qed.
Lemma said_writes t a : filter gwrites (said t a) = []. Proof. destruct a; reflexivity. Qed.
Lemma own_socket es s tr : gexec ord gw0 es s tr -> opened None tr -> exists evs, exec conn0 evs (d_c (g_d s)) (on_link None tr) /\ In EvConnect evs.
Proof.
  intros X O. apply (exec_socket _ _ _ None X) in O. destruct (exec_linked _ _ _ _ X) as [_ XL]. destruct (XL None) as (evs & E). exists evs. split; [exact E|]. apply (exec_up _ _ _ E). exact O.
Qed.
Lemma sub_sends t c cmd b d tr evs : exec conn0 evs (d_c d) (on_link None tr) -> In EvConnect evs -> payload c = Some (cmd, 0, 0) -> encodes cmd (bits_of b) -> bytes_ok b ->
  exists u, filter gwrites (gos (sub t None c d)) = [GAt None (OWire (Some u) (packet ((sends (on_link None tr) + 1) mod 256) 0 0 b))].
Proof.
  intros X U P EN B. destruct (framing _ _ _ _ _ _ _ _ X U P ltac:(lia) ltac:(lia) EN) as (cbs & k' & os & C & EB & ST & NW).
  destruct (proj1 EncodeProofs.compose_all _ _ EN) as (_ & cbs' & EC & BC & _). rewrite C in EC. injection EC as <-.
  apply (bits_of_inj _ _ BC B) in EB. subst cbs. exists (length (c_tasks (d_c d))). unfold sub. cbn [conn_at]. rewrite ST. cbn [gos fst snd map filter gwrites]. rewrite (no_writes_at None os NW). reflexivity.
Qed.
Lemma call_fails k c cmd sep dep e : payload c = Some (cmd, sep, dep) -> send_bytes (Z.land (c_seq k + 1) 255) sep dep cmd = Err e ->
  exists k', step k (EvCall c) = Some (k', [OCall (length (c_tasks k)) c; ORet (length (c_tasks k)) (RExc e)]) /\ nth_error (c_tasks k') (length (c_tasks k)) = Some (mkT c (PDone (RExc e))).
Proof.
  intros P SB.
  assert (N : forall x, nth_error (c_tasks k ++ [x]) (length (c_tasks k)) = Some x) by (intros; rewrite nth_snoc, Nat.eqb_refl; reflexivity).
  assert (U : forall (x y : task), nth_error (upd (length (c_tasks k)) y (c_tasks k ++ [x])) (length (c_tasks k)) = Some y) by (intros; rewrite nth_upd, Nat.eqb_refl, N; reflexivity).
  destruct c as [cmd0 sep0 dep0 tmo|cmd0 sep0 dep0 h tmo|h tmo]; cbn [payload] in P; try discriminate P; injection P as -> -> ->; cbn [step start_call c_w].
  - unfold start_send. cbn [c_seq]. rewrite SB. unfold finish. eexists. split; [reflexivity|]. unfold Conn.set_pc. cbn [c_tasks set_seq]. rewrite N. cbn [set_task c_tasks t_call set_seq]. apply U.
  - destruct (add_session h (c_w k)) as [f w]. unfold start_send. cbn [c_seq set_w]. rewrite SB. unfold finish. eexists. split; [reflexivity|]. unfold Conn.set_pc. cbn [c_tasks set_seq set_w]. rewrite N. cbn [set_task c_tasks t_call set_seq set_w]. apply U.
Qed.
Lemma sub_overflows t c s d0 d tr evs : exec conn0 evs (d_c d) (on_link None tr) -> payload c = Some (VObj (CMsg s) d0, 0, 0) -> compose (VObj (CMsg s) d0) = Err EOverflow ->
  filter gwrites (gos (sub t None c d)) = [] /\ snd (sub t None c d) = ARet (Err EOverflow).
Proof.
  intros X P C. destruct (exec_good _ _ _ X) as [(I & SQ & SL) A]. pose proof (Z.mod_pos_bound (sends (on_link None tr) + 1) 256 ltac:(lia)) as MB. pose proof (send_fails _ _ _ _ MB C) as SF.
  rewrite <- land255, <- SQ in SF. destruct (call_fails _ _ _ _ _ _ P SF) as (k' & ST & N). unfold sub. cbn [conn_at]. rewrite ST, N. split; reflexivity.
Qed.
Lemma nm_call q m : payload (match nm_wait q with Some (s, tmo) => CSendRecv m 0 0 (s_hid s) tmo | None => CSend m 0 0 3000 end) = Some (m, 0, 0).
Proof. destruct (nm_wait q) as [[s tmo]|]; reflexivity. Qed.
Lemma request_sent es s tr q : gexec ord gw0 es s tr -> opened None tr -> nm_valid q -> nm_requests tr < 255 ->
  exists s' os u, gstep ord s (GCall (GNm q)) = Some (s', os) /\
    filter gwrites os = [GAt None (OWire (Some u) (packet ((sends (on_link None tr) + 1) mod 256) 0 0 (nm_bytes q (nm_requests tr + 1))))].
Proof.
  intros X O V L. destruct (own_socket _ _ _ X O) as (evs & X0 & U). pose proof (exec_nm _ _ _ X) as K. assert (P : 0 <= nm_requests tr) by (unfold nm_requests, zlen; lia).
  destruct (nm_encodes q (nm_requests tr + 1) V ltac:(unfold byte; lia)) as (sc & d & M & EN & B).
  cbn [gstep]. destruct (start ord (length (g_tasks s)) (GNm q) (g_d s)) as [[d1 o1] a] eqn:S. rewrite (spawn_eq _ _ _ _ _ _ S).
  cbn [start] in S. unfold start_nm in S. cbv zeta in S. rewrite K, M in S.
  match type of S with context [sub ?t None ?c ?x] => destruct (sub_sends t c (VObj (CMsg sc) d) (nm_bytes q (nm_requests tr + 1)) x tr evs X0 U (nm_call q _) EN B) as (u & W); destruct (sub t None c x) as [[d' os] [r|w fs]] end;
    injection S as <- <- <-; do 2 eexists; exists u; (split; [reflexivity|]); cbn [filter gwrites]; rewrite filter_app, said_writes, app_nil_r; exact W.
Qed.
Lemma request_lost es s tr q : gexec ord gw0 es s tr -> nm_valid q -> 255 <= nm_requests tr ->
  exists s' os t, gstep ord s (GCall (GNm q)) = Some (s', os) /\ filter gwrites os = [] /\ In (GRet t (Err EOverflow)) os.
Proof.
  intros X V L. destruct (exec_linked _ _ _ _ X) as [_ XL]. destruct (XL None) as (evs & X0). pose proof (exec_nm _ _ _ X) as K.
  assert (M : exists m, nm_msg q (nm_requests tr + 1) = Ok m).
  { destruct q; cbn [nm_msg nm_valid] in *; try (eexists; reflexivity). destruct V as (_ & bs & -> & LB & FB).
    unfold new_msg. cbn. rewrite (proj2 (Z.eqb_eq (zlen bs) 16)) by (unfold zlen; lia). cbn. eexists. reflexivity. }
  destruct M as (m & M). destruct (nm_first _ _ _ M) as (sc & d & rest & -> & HR & EA & G & _). pose proof (first_overflow _ _ _ _ HR EA G ltac:(lia)) as C.
  cbn [gstep]. destruct (start ord (length (g_tasks s)) (GNm q) (g_d s)) as [[d1 o1] a] eqn:S. rewrite (spawn_eq _ _ _ _ _ _ S).
  cbn [start] in S. unfold start_nm in S. cbv zeta in S. rewrite K, M in S.
  match type of S with context [sub ?t None ?c ?x] => destruct (sub_overflows t c sc d x tr evs X0 (nm_call q _) C) as (W & R); destruct (sub t None c x) as [[d' os] [r|w fs]] end; [|discriminate R].
  injection S as <- <- <-. injection R as ->. do 2 eexists. exists (length (g_tasks s)). split; [reflexivity|]. cbn [filter gwrites]. rewrite filter_app, said_writes, app_nil_r. split; [exact W|].
  right. apply in_or_app. right. left. reflexivity.
Qed.
(** getNodeList *)
Lemma list_msg k : new_msg m_NetworkManagementProxy_NodeListGet [("seqNo", VInt k)] = Ok (VObj (CMsg m_NetworkManagementProxy_NodeListGet) [("seqNo", VI false 1 k)]).
Proof. reflexivity. Qed.
Lemma list_encodes k : byte k -> encodes (VObj (CMsg m_NetworkManagementProxy_NodeListGet) [("seqNo", VI false 1 k)]) (bits_of [82; 1; k]).
Proof.
  intros B. unfold byte in B. assert (A : args m_NetworkManagementProxy_NodeListGet [("seqNo", VInt k)] (s_attrs m_NetworkManagementProxy_NodeListGet) (nbits 8 k ++ [])) by (cbn [s_attrs m_NetworkManagementProxy_NodeListGet]; all_args).
  destruct (new_msg_encodes m_NetworkManagementProxy_NodeListGet _ _ ltac:(in_registry) A) as (d & E & EN & _). rewrite list_msg in E. injection E as <-. exact EN.
Qed.
Lemma list_sent es s tr : gexec ord gw0 es s tr -> opened None tr -> nm_requests tr < 255 ->
  exists s' os, gstep ord s (GCall GList) = Some (s', os) /\
    ((exists t l, os = [GCalled t GList; GRet t (Ok (GV (VNodeList l)))]) \/
     exists u, filter gwrites os = [GAt None (OWire (Some u) (packet ((sends (on_link None tr) + 1) mod 256) 0 0 [82; 1; nm_requests tr + 1]))]).
Proof.
  intros X O L. destruct (own_socket _ _ _ X O) as (evs & X0 & U). pose proof (exec_nm _ _ _ X) as K. assert (P : 0 <= nm_requests tr) by (unfold nm_requests, zlen; lia).
  cbn [gstep]. destruct (start ord (length (g_tasks s)) GList (g_d s)) as [[d1 o1] a] eqn:S. rewrite (spawn_eq _ _ _ _ _ _ S).
  cbn [start] in S. unfold start_list in S. cbv zeta in S. destruct (d_nodes (g_d s)); [|injection S as <- <- <-; do 2 eexists; split; [reflexivity|]; left; do 2 eexists; reflexivity].
  rewrite K, list_msg in S. do 2 eexists. split; [reflexivity|]. right.
  match type of S with context [sub ?t None ?c ?x] => destruct (sub_sends t c _ _ x tr evs X0 U eq_refl (list_encodes (nm_requests tr + 1) ltac:(unfold byte; lia)) ltac:(repeat (constructor; [lia|]); constructor)) as (u & W);
    destruct (sub t None c x) as [[d' os] [r|w fs]] end;
    injection S as <- <- <-; exists u; cbn [filter gwrites]; rewrite filter_app, said_writes, app_nil_r; exact W.
Qed.
Lemma list_lost es s tr : gexec ord gw0 es s tr -> 255 <= nm_requests tr ->
  exists s' os t, gstep ord s (GCall GList) = Some (s', os) /\ ((exists l, os = [GCalled t GList; GRet t (Ok (GV (VNodeList l)))]) \/ filter gwrites os = [] /\ In (GRet t (Err EOverflow)) os).
Proof.
  intros X L. destruct (exec_linked _ _ _ _ X) as [_ XL]. destruct (XL None) as (evs & X0). pose proof (exec_nm _ _ _ X) as K.
  cbn [gstep]. destruct (start ord (length (g_tasks s)) GList (g_d s)) as [[d1 o1] a] eqn:S. rewrite (spawn_eq _ _ _ _ _ _ S).
  cbn [start] in S. unfold start_list in S. cbv zeta in S. destruct (d_nodes (g_d s)); [|injection S as <- <- <-; do 2 eexists; exists (length (g_tasks s)); split; [reflexivity|]; left; eexists; reflexivity].
  rewrite K, list_msg in S. do 2 eexists. exists (length (g_tasks s)). split; [reflexivity|]. right.
  pose proof (first_overflow m_NetworkManagementProxy_NodeListGet [("seqNo", VI false 1 (nm_requests tr + 1))] [] (nm_requests tr + 1) ltac:(in_registry) eq_refl eq_refl ltac:(lia)) as C.
  match type of S with context [sub ?t None ?c ?x] => destruct (sub_overflows t c _ _ x tr evs X0 eq_refl C) as (W & R); destruct (sub t None c x) as [[d' os] [r|w fs]] end; [|discriminate R].
  injection S as <- <- <-. injection R as ->. cbn [filter gwrites]. rewrite filter_app, said_writes, app_nil_r. split; [exact W|].
  right. apply in_or_app. right. left. reflexivity.
Qed.
End Nm.
