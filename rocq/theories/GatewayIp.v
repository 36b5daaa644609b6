(** Address lookups (C42). *)
From Coq Require Import String ZArith List Bool Lia.
From Verif Require Import Py BitStream Schema Registry Codec SpecBits BitLemmas SpecWire CodecProofs Waiter Conn SpecConn ConnLemmas ConnPacket ConnAck ConnInv ConnCases ConnCalm ConnProps ConnCut
  Gateway SpecGateway GatewayProofs GatewayLinks GatewayStory.
From Verif Require EncodeProofs.
Import ListNotations.
Open Scope list_scope.
Open Scope string_scope.
Open Scope list_scope.
Open Scope Z_scope.

(** ** calls and their ends on a connection *)
Lemma ret_task es s tr n u r : exec conn0 es s tr -> In (n, ORet u r) tr -> (u < length (c_tasks s))%nat.
Proof.
  intros X. revert n u r. induction X as [|es s tr e s' os X IH ST]; intros n u r J; [destruct J|]. destruct (exec_good _ _ _ X) as [G _].
  assert (OLD : (u < length (c_tasks s))%nat -> (u < length (c_tasks s'))%nat).
  { intros L. destruct (nth_error (c_tasks s) u) as [[c p]|] eqn:E; [|apply nth_error_None in E; lia]. destruct (step_task _ _ _ _ _ _ _ _ G ST E) as (p' & E'). apply nth_lt in E'. exact E'. }
  apply in_app_or in J as [J|J]; [apply OLD; exact (IH _ _ _ J)|].
  apply in_map_iff in J as (o & E & J). injection E as _ ->. destruct (ret_obs _ _ _ _ _ _ _ G ST J) as [E|[(c & ->) ->]].
  - subst os. pose proof (good_case _ _ _ _ _ G ST) as KC. inversion KC; subst; try (apply OLD; eapply nth_lt; eassumption); try discriminate.
    all: try (match goal with H : [ORet _ _] = [ORet _ _] |- _ => injection H as -> _; apply OLD; eapply nth_lt; eassumption end).
    all: try (match goal with H : context [conn_send] |- _ => unfold conn_send in H; destruct (c_up s); discriminate end).
  - pose proof (good_case _ _ _ _ _ G ST) as KC. inversion KC; subst; cbn; rewrite upd_length, app_length; cbn; lia.
Qed.
Lemma in_split_at {A} (x : A) l : In x l -> exists a b, l = a ++ x :: b. Proof. apply in_split. Qed.
Lemma call_then_ret es s tr n0 u c n1 r : exec conn0 es s tr -> In (n0, OCall u c) tr -> In (n1, ORet u r) tr -> exists a b rest, tr = a ++ (n0, OCall u c) :: b ++ (n1, ORet u r) :: rest.
Proof.
  intros X C R. apply in_split in C as (a & b & ->). apply in_app_or in R as [R|[R|R]]; [|discriminate|apply in_split in R as (b1 & rest & ->); eauto].
  exfalso. destruct (exec_cut _ _ _ _ _ _ _ X eq_refl) as (es1 & s1 & a1 & e & s2 & o1 & o2 & es2 & tr3 & X1 & S1 & X2 & EA & EB & EN & _). cbn [fst snd] in *.
  destruct (exec_good _ _ _ X1) as [G1 _]. destruct (call_obs _ _ _ _ _ u c G1 S1 ltac:(apply in_or_app; right; left; reflexivity)) as (-> & -> & os' & EO).
  destruct o1 as [|o o1]; [|injection EO as -> EO].
  - cbn in EA. rewrite app_nil_r in EA. subst a1. apply (ret_task _ _ _ _ _ _ X1) in R. lia.
  - pose proof (proj2 (exec_good _ _ _ X)) as A. specialize (A _ _ _ eq_refl). cbn in A. apply (A (c_now s1) c). rewrite EA. apply in_or_app. right. left. reflexivity.
Qed.
Lemma wait_returns es s tr n0 u h tmo n1 r : exec conn0 es s tr -> In (n0, OCall u (CWait h tmo)) tr -> In (n1, ORet u r) tr -> (exists m, r = RMsg m) \/ exists e, r = RExc e.
Proof.
  intros X C R. destruct r as [v|m|e]; [|eauto|eauto]. exfalso. pose proof (proj2 (exec_good _ _ _ X)) as A. apply in_split in R as (x & y & ->). pose proof (A _ _ _ eq_refl) as M. cbn in M.
  assert (B : exists c n k, born x u c n k /\ sending c = true) by (destruct v; [destruct M as (c & n & k & _ & _ & B & S & _)|destruct M as (c & n & k & _ & B & S & _)]; eauto).
  destruct B as (c & n & k & (a & b & -> & _) & S). apply in_split in C as (a' & b' & E').
  destruct (split_unique _ A a n c (b ++ (n1, ORet u (RBool v)) :: y) a' n0 (CWait h tmo) b' u) as (_ & _ & -> & _); [rewrite <- app_assoc; reflexivity|exact E'|discriminate].
Qed.

(** ** histories *)
Definition no_ip (fs : list frame) : Prop := forall n, ~ In (FIp n) fs.
Definition no_found (os : list gobs) : Prop := forall t n ip, ~ In (GFound t n ip) os.
Definition asking (t : nat) (n : Z) (w : await) (os : list gobs) : Prop :=
  exists a bs sent u, w = AwCall None u /\ os = a ++ [GAsk t n bs sent; GSub t None u (CWait adv_hid 3000)] /\ solicit n = Ok bs.
Definition quiet (t : nat) (g : go) : Prop :=
  no_found (gos g) /\ match snd g with ARet _ => True | AWait w fs => no_ip (tl fs) /\ forall n fs', fs = FIp n :: fs' -> asking t n w (filter (mine t) (gos g)) end.
Lemma no_found_nil : no_found []. Proof. intros t n ip []. Qed.
Lemma no_found_app a b : no_found a -> no_found b -> no_found (a ++ b). Proof. intros A B t n ip J. apply in_app_or in J as [J|J]; [exact (A _ _ _ J)|exact (B _ _ _ J)]. Qed.
Lemma no_found_at l xs : no_found (map (GAt l) xs). Proof. intros t n ip J. apply in_map_iff in J as (x & E & _). discriminate. Qed.
Lemma no_ip_app a b : no_ip a -> no_ip b -> no_ip (a ++ b). Proof. intros A B n J. apply in_app_or in J as [J|J]; [exact (A _ J)|exact (B _ J)]. Qed.
Lemma no_ip_nil : no_ip []. Proof. intros n []. Qed.
Lemma quiet_ret t r d : quiet t (ret r d). Proof. split; [exact no_found_nil|exact I]. Qed.
Lemma sub_found t l c d : no_found (gos (sub t l c d)).
Proof.
  destruct (sub t l c d) as [[d' os] a] eqn:E. cbn [gos fst snd]. destruct (sub_own _ _ _ _ _ _ _ E) as [(_ & _ & -> & _)|(k & k' & xs & _ & _ & -> & _ & _)]; [exact no_found_nil|].
  intros t' n ip [J|J]; [discriminate|]. exact (no_found_at _ _ _ _ _ J).
Qed.
Lemma sub_frames t l c d d' os w fs : sub t l c d = (d', os, AWait w fs) -> fs = [].
Proof. intros E. destruct (sub_own _ _ _ _ _ _ _ E) as [(_ & H & _)|(k & k' & xs & _ & _ & _ & _ & [H|(e & H & _)])]; congruence. Qed.
Lemma quiet_sub t l c d : quiet t (sub t l c d).
Proof.
  split; [apply sub_found|]. destruct (sub t l c d) as [[d' os] [r|w fs]] eqn:E; cbn [snd]; [exact I|]. rewrite (sub_frames _ _ _ _ _ _ _ _ E). split; [exact no_ip_nil|discriminate].
Qed.
Lemma quiet_under t g fs k : quiet t g -> no_ip fs -> (forall r d, quiet t (k r d)) -> quiet t (under g fs k).
Proof.
  intros [G1 G2] F K. destruct g as [[d os] [r|w gs]]; cbn [under gos fst snd] in *.
  - specialize (K r d). destruct (k r d) as [[d' os'] a]. destruct K as [K1 K2]. split; cbn [gos fst snd] in *; [apply no_found_app; assumption|]. destruct a as [r'|w fs']; [exact I|]. destruct K2 as [K2 K3]. split; [exact K2|].
    intros n fs'' E. destruct (K3 _ _ E) as (a & bs & sent & u & -> & EO & S). exists (filter (mine t) os ++ a), bs, sent, u. rewrite filter_app, EO, <- app_assoc. auto.
  - split; [exact G1|]. destruct G2 as [G2 G3]. cbn [snd]. destruct gs as [|f gs]; cbn [app tl] in *.
    + split; [destruct fs; [exact no_ip_nil|intros n J; apply (F n); right; exact J]|]. intros n fs' ->. elim (F n). left. reflexivity.
    + split; [apply no_ip_app; assumption|]. intros n fs' E. injection E as -> _. exact (G3 _ _ eq_refl).
Qed.
Lemma quiet_frames t g fs : quiet t g -> no_ip fs -> quiet t (match g with (d', os, AWait w gs) => (d', os, AWait w (gs ++ fs)) | (d', os, ARet r) => (d', os, ARet r) end).
Proof. intros G F. pose proof (quiet_under t g fs ret G F (quiet_ret t)) as Q. destruct g as [[d os] [r|w gs]]; [exact G|exact Q]. Qed.
Lemma no_ip_one f : (forall n, f <> FIp n) -> no_ip [f]. Proof. intros H n [J|[]]. exact (H n J). Qed.
Local Ltac noip := apply no_ip_one; intros ? ?; discriminate.
Lemma quiet_ip t n d : quiet t (start_ip t n d).
Proof.
  unfold start_ip. destruct (solicit n) as [bs|e] eqn:S; [|apply quiet_ret]. pose proof (sub_found t None (CWait adv_hid 3000) d) as F.
  destruct (sub t None (CWait adv_hid 3000) d) as [[d' os] a] eqn:E. cbn [gos fst snd] in F. destruct (sub_mine _ _ _ _ _ _ _ E) as [(_ & _ & i & H)|(u & FM & [->|(e & -> & _)])]; [discriminate| |].
  - split; cbn [gos fst snd]; [intros t' n' ip [J|J]; [discriminate|exact (F _ _ _ J)]|]. cbn [app tl]. split; [exact no_ip_nil|]. intros n' fs' E'. injection E' as <- <-.
    exists [], bs, (c_up (d_c d)), u. cbn. rewrite Nat.eqb_refl, FM. auto.
  - split; [intros t' n' ip [J|J]; [discriminate|exact (F _ _ _ J)]|exact I].
Qed.
Lemma quiet_loop t ns : forall d, quiet t (report_loop t ns d).
Proof.
  induction ns as [|n ns IH]; intros d; cbn [report_loop]; [split; [intros t' n ip [J|[]]; discriminate|exact I]|]. destruct (dmem Z.eqb n (d_nodes d)); [apply IH|].
  apply quiet_under; [apply quiet_ip|noip|]. intros [?|?] ?; apply quiet_ret.
Qed.
Lemma quiet_setup_loop t ns : forall d, quiet t (setup_loop t ns d).
Proof.
  induction ns as [|n ns IH]; intros d; cbn [setup_loop]; [apply quiet_ret|]. destruct (dget Z.eqb n (d_nodes d)) as [ip|]; [|apply quiet_ret]. destruct (truthy ip); [apply IH|].
  apply quiet_under; [apply quiet_ip|noip|]. intros [?|?] ?; apply quiet_ret.
Qed.
Lemma quiet_mode t m tmo d : quiet t (start_mode t m tmo d).
Proof. unfold start_mode. apply (quiet_frames t (sub t None _ d) [FMode m]); [apply quiet_sub|noip]. Qed.
Lemma quiet_list t d : quiet t (start_list t d).
Proof.
  unfold start_list. destruct (d_nodes d); [|apply quiet_ret]. cbv zeta. destruct (new_msg _ _) as [m|e]; [|apply quiet_ret].
  apply (quiet_frames t (sub t None _ _) [FList]); [apply quiet_sub|noip].
Qed.
Lemma quiet_nm t q d : quiet t (start_nm t q d).
Proof.
  unfold start_nm. cbv zeta. destruct (nm_msg q _) as [m|e]; [|apply quiet_ret]. apply (quiet_frames t (sub t None _ _) [FNm q]); [apply quiet_sub|noip].
Qed.
Section Ip.
Variable ord : list Z -> list Z.
Lemma quiet_setup t r d : quiet t (setup_nodes ord t r d).
Proof. unfold setup_nodes. destruct r as [[v|l]|e]; try apply quiet_ret. destruct v; try apply quiet_ret. apply quiet_setup_loop. Qed.
Lemma quiet_link t n d : quiet t (start_link t n d).
Proof. unfold start_link. destruct (dget Z.eqb n (d_conns d)); [apply quiet_ret|]. apply quiet_under; [apply quiet_ip|noip|]. intros; apply quiet_ret. Qed.
Lemma quiet_wait t d os w f : no_found os -> (forall n, f <> FIp n) -> quiet t (d, os, AWait w [f]).
Proof. intros F N. split; [exact F|]. cbn. split; [exact no_ip_nil|]. intros n fs' E. injection E as -> _. elim (N n). reflexivity. Qed.
Lemma quiet_frame t f r d : (forall n, f <> FIp n) -> quiet t (frame_step ord t f r d).
Proof.
  intros NF. destruct f; try (elim (NF _ eq_refl)); destruct r as [[v|l']|e]; cbn [frame_step]; try (destruct e; match goal with |- quiet _ (ret _ _) => apply quiet_ret end);
    try match goal with |- quiet _ (ret _ _) => apply quiet_ret | |- quiet _ (setup_nodes _ _ _ _) => apply quiet_setup | |- quiet _ (under _ _ _) => apply quiet_under end.
  all: try match goal with |- no_ip _ => noip | |- quiet _ (start_mode _ _ _ _) => apply quiet_mode | |- quiet _ (sub _ _ _ _) => apply quiet_sub | |- quiet _ (start_list _ _) => apply quiet_list
       | |- quiet _ (report_loop _ _ _) => apply quiet_loop | |- quiet _ (setup_loop _ _ _) => apply quiet_setup_loop | |- quiet _ (send_over _ _ _ _ _ _ _) => apply quiet_sub
       | |- quiet _ (_, [], AWait AwListen [FListen]) => apply quiet_wait; [exact no_found_nil|discriminate] end.
  all: try match goal with |- forall _ _, quiet _ _ => intros [?|?] ?; match goal with |- quiet _ (ret _ _) => apply quiet_ret | |- quiet _ (setup_nodes _ _ _ _) => apply quiet_setup | |- quiet _ (_, _, _) => apply quiet_wait; [exact no_found_nil|discriminate] end end.
  - destruct v; try apply quiet_ret. apply quiet_wait; [intros ? ? ? [J|[]]; discriminate|discriminate].
  - destruct (is_mode v mode); [apply quiet_ret|]. apply quiet_under; [|noip|intros; apply quiet_ret]. change (new_msg m_ZipGateway_GatewayModeSet [("mode", VInt mode)]) with (Ok (VObj (CMsg m_ZipGateway_GatewayModeSet) [("mode", VI false 1 mode)])). apply quiet_sub.
  - destruct (getattr v "nodes"); apply quiet_ret.
Qed.
Lemma quiet_unwind t fs : no_ip fs -> forall r d, quiet t (unwind ord t r fs d).
Proof.
  induction fs as [|f fs IH]; intros N r d; cbn [unwind]; [apply quiet_ret|]. assert (N1 : forall n, f <> FIp n) by (intros n ->; apply (N n); left; reflexivity). assert (N2 : no_ip fs) by (intros n J; apply (N n); right; exact J).
  pose proof (quiet_under t _ fs (fun r d => unwind ord t r fs d) (quiet_frame t f r d N1) N2 (IH N2)) as Q. unfold under in Q. destruct (frame_step ord t f r d) as [[d' os] [r'|w gs]]; exact Q.
Qed.
Lemma quiet_start t c d : quiet t (start ord t c d).
Proof.
  destruct c; cbn [start]; [apply quiet_nm|apply quiet_list|apply quiet_ip|apply quiet_link| | |apply quiet_mode|apply quiet_wait; [exact no_found_nil|discriminate]].
  - apply quiet_under; [apply quiet_link|noip|]. intros [[?|?]|?] ?; try apply quiet_ret. apply quiet_sub.
  - unfold start_report. destruct nodes; try apply quiet_ret. apply quiet_loop.
Qed.
Definition found_ok (t : nat) (h : list gobs) : Prop := forall a t' n ip b, h = a ++ GFound t' n ip :: b -> exists a' bs sent u m,
  a = a' ++ [GAsk t n bs sent; GSub t None u (CWait adv_hid 3000); GBack t (AwCall None u) (Ok (GV m))] /\ solicit n = Ok bs /\ ip = getattr m "ipv6".
Definition ip_hist (t : nat) (c : gcall) (p : gpc) (h : list gobs) : Prop :=
  found_ok t h /\ match p with GDone _ => True | GWait w fs => no_ip (tl fs) /\ forall n fs', fs = FIp n :: fs' -> asking t n w h end.
Lemma found_app t h os : found_ok t h -> no_found os -> found_ok t (h ++ os).
Proof.
  intros H N a t' n ip b E. destruct (app_cut _ _ _ _ _ E) as [(c & -> & ->)|(c & -> & ->)]; [exact (H _ _ _ _ _ eq_refl)|].
  elim (N t' n ip). apply in_or_app. right. left. reflexivity.
Qed.
Lemma mine_found t os : no_found os -> no_found (filter (mine t) os). Proof. intros N t' n ip J. apply filter_In in J as [J _]. exact (N _ _ _ J). Qed.
Lemma said_found t a : no_found (said t a). Proof. destruct a; [intros ? ? ? [J|[]]; discriminate|exact no_found_nil]. Qed.
Lemma ip_story es s tr : gexec ord gw0 es s tr -> forall t c p, nth_error (g_tasks s) t = Some (mkGT c p) -> ip_hist t c p (own t tr).
Proof.
  intros X. refine (proj1 (story ord ip_hist _ _ es s tr X)); clear.
  - intros t c d d' os a S. pose proof (quiet_start t c d) as Q. rewrite S in Q. destruct Q as [Q1 Q2]. cbn [gos fst snd] in *. split.
    + apply (found_app t [GCalled t c]); [intros x t' n ip b E; destruct x as [|? [|]]; discriminate|]. apply no_found_app; [apply mine_found; exact Q1|apply said_found].
    + destruct a as [r|w fs]; cbn [pc_of said]; [exact I|]. destruct Q2 as [Q2 Q3]. split; [exact Q2|]. intros n fs' E. destruct (Q3 _ _ E) as (x & bs & sent & u & -> & EO & S'). exists (GCalled t c :: x), bs, sent, u. rewrite app_nil_r, EO. auto.
  - intros t c w fs r d d' os a h pre [H1 H2] B U. destruct H2 as [H2 H3].
    assert (G : forall g, quiet t g -> forall r', g = (d', os, a) -> found_ok t (h ++ [GBack t w r']) -> ip_hist t c (pc_of a) (h ++ GBack t w r' :: filter (mine t) os ++ said t a)).
    { intros g [Q1 Q2] r' -> F. cbn [gos fst snd] in *. replace (h ++ GBack t w r' :: filter (mine t) os ++ said t a) with ((h ++ [GBack t w r']) ++ filter (mine t) os ++ said t a) by (rewrite <- app_assoc; reflexivity). split.
      - apply found_app; [exact F|]. apply no_found_app; [apply mine_found; exact Q1|apply said_found].
      - destruct a as [rr|w' fs'']; cbn [pc_of said]; [exact I|]. destruct Q2 as [Q2 Q3]. split; [exact Q2|]. intros n fs''' E. destruct (Q3 _ _ E) as (x & bs & sent & u & -> & EO & S'). exists ((h ++ [GBack t w r']) ++ x), bs, sent, u. rewrite app_nil_r, EO, <- !app_assoc. auto. }
    assert (FB : found_ok t (h ++ [GBack t w r])) by (apply found_app; [exact H1|intros ? ? ? [J|[]]; discriminate]).
    destruct (match fs with FIp n :: fs' => Some (n, fs') | _ => None end) as [[n fs']|] eqn:FI.
    + destruct fs as [|[] ?]; try discriminate. injection FI as -> ->. destruct (H3 _ _ eq_refl) as (x & bs & sent & u & -> & -> & S). cbn [unwind tl] in *. cbn [back] in B. destruct B as (r0 & -> & _).
      destruct (of_result r0) as [[m|l]|e] eqn:R; cbn [frame_step] in U.
      * pose proof (quiet_unwind t fs' H2 (Ok (GV (getattr m "ipv6"))) d) as Q. destruct (unwind ord t (Ok (GV (getattr m "ipv6"))) fs' d) as [[d1 o1] a1]. injection U as <- <- <-.
        destruct Q as [Q1 Q2]. cbn [gos fst snd app] in *. cbn [filter mine task_of]. rewrite Nat.eqb_refl. cbn [app].
        set (hh := ((x ++ [GAsk t n bs sent; GSub t None u (CWait adv_hid 3000)]) ++ [GBack t (AwCall None u) (Ok (GV m))]) ++ [GFound t n (getattr m "ipv6")]).
        replace ((x ++ [GAsk t n bs sent; GSub t None u (CWait adv_hid 3000)]) ++ GBack t (AwCall None u) (Ok (GV m)) :: GFound t n (getattr m "ipv6") :: filter (mine t) o1 ++ said t a1) with (hh ++ filter (mine t) o1 ++ said t a1)
          by (unfold hh; rewrite <- !app_assoc; reflexivity).
        split.
        -- apply found_app; [|apply no_found_app; [apply mine_found; exact Q1|apply said_found]]. intros y t' n' ip b E. unfold hh in E. destruct (app_cut _ _ _ _ _ E) as [(z & E1 & ->)|(z & -> & E1)]; [exact (FB _ _ _ _ _ E1)|].
           destruct z as [|? [|]]; try discriminate. injection E1 as <- <- <- <-. exists x, bs, sent, u, m. rewrite app_nil_r, <- app_assoc. auto.
        -- destruct a1 as [rr|w' fs'']; cbn [pc_of said]; [exact I|]. destruct Q2 as [Q2 Q3]. split; [exact Q2|]. intros n' fs''' E. destruct (Q3 _ _ E) as (y & bs' & sent' & u' & -> & EO & S'). exists (hh ++ y), bs', sent', u'. rewrite app_nil_r, EO, <- !app_assoc. auto.
      * destruct r0; discriminate.
      * pose proof (quiet_unwind t fs' H2 (Err e) d) as Q. assert (U' : unwind ord t (Err e) fs' d = (d', os, a)) by (cbn in U; destruct (unwind ord t (Err e) fs' d) as [[d1 o1] a1]; exact U).
        apply (G _ Q (Err e) U'). exact FB.
    + assert (NI : no_ip fs) by (intros n J; destruct fs as [|f fs']; [exact J|]; destruct J as [->|J]; [discriminate|exact (H2 n J)]). apply (G _ (quiet_unwind t fs NI r d) r U). exact FB.
Qed.
End Ip.

(** ** from a task's history to the connections *)
Lemma moves_calls t d os d' : moves t d os d' -> forall t' l u c, In (GSub t' l u c) os -> In (GAt l (OCall u c)) os.
Proof.
  induction 1; intros t' l0 u0 c0 J; [destruct J| | | |exact (IHmoves _ _ _ _ J)].
  - destruct J as [J|J]; [subst o; contradiction|]. right. exact (IHmoves _ _ _ _ J).
  - right. apply in_or_app. destruct J as [J|J].
    + injection J as <- <- <- <-. left. apply in_map. cbn [step] in H0. destruct (start_call _ c _). injection H0 as _ <-. left. congruence.
    + apply in_app_or in J as [J|J]; [apply in_map_iff in J as (? & ? & _); discriminate|]. right. exact (IHmoves _ _ _ _ J).
  - destruct J as [J|J]; [discriminate|]. right. exact (IHmoves _ _ _ _ J).
Qed.
Lemma at_link l x tr n : In (n, GAt l x) tr -> In (n, x) (on_link l tr).
Proof. intros J. apply in_flat_map. exists (n, GAt l x). split; [exact J|]. cbn. rewrite same_link_refl. left. reflexivity. Qed.
Section Pairs.
Variable ord : list Z -> list Z.
Lemma case_calls s e s' os : gcase ord s e s' os -> (forall t l u c, In (GSub t l u c) os -> In (GAt l (OCall u c)) os) /\
  (forall t l u r, In (GBack t (AwCall l u) r) os -> exists r0, r = of_result r0 /\ In (GAt l (ORet u r0)) os).
Proof.
  assert (NT : forall pre o, Forall no_task pre -> In o pre -> task_of o = None) by (intros pre o F J; rewrite Forall_forall in F; exact (F o J)).
  intros C. inversion C; subst.
  - split; intros t l u ? J; apply (NT _ _ H1) in J; discriminate.
  - pose proof (good_start ord (length (g_tasks s)) c (g_d s)) as M. rewrite H in M. unfold good_go, gos, gd in M. cbn [fst snd] in M. split; intros t l u x J; apply in_app_or in J as [J|J]; try (apply (NT _ _ H0) in J; discriminate).
    + destruct J as [J|J]; [discriminate|]. apply in_app_or in J as [J|J]; [|destruct a; [destruct J as [J|[]]; discriminate|destruct J]].
      apply in_or_app. right. right. apply in_or_app. left. exact (moves_calls _ _ _ _ M _ _ _ _ J).
    + destruct J as [J|J]; [discriminate|]. exfalso. apply in_app_or in J as [J|J]; [|destruct a; [destruct J as [J|[]]; discriminate|destruct J]]. apply moves_ours in M. rewrite Forall_forall in M. exact (M _ J).
  - pose proof (good_unwind ord t fs r d1) as M. rewrite H3 in M. unfold good_go, gos, gd in M. cbn [fst snd] in M. split; intros t' l u x J; apply in_app_or in J as [J|J]; try (apply (NT _ _ H2) in J; discriminate).
    + destruct J as [J|J]; [discriminate|]. apply in_app_or in J as [J|J]; [|destruct a; [destruct J as [J|[]]; discriminate|destruct J]].
      apply in_or_app. right. right. apply in_or_app. left. exact (moves_calls _ _ _ _ M _ _ _ _ J).
    + destruct J as [J|J].
      * injection J as -> -> ->. destruct H1 as (r0 & -> & I). exists r0. split; [reflexivity|]. apply in_or_app. left. exact I.
      * exfalso. apply in_app_or in J as [J|J]; [|destruct a; [destruct J as [J|[]]; discriminate|destruct J]]. apply moves_ours in M. rewrite Forall_forall in M. exact (M _ J).
Qed.
Lemma pairs es s tr : gexec ord gw0 es s tr -> (forall n t l u c, In (n, GSub t l u c) tr -> In (n, OCall u c) (on_link l tr)) /\
  (forall n t l u r, In (n, GBack t (AwCall l u) r) tr -> exists r0, r = of_result r0 /\ In (n, ORet u r0) (on_link l tr)).
Proof.
  induction 1 as [|es s tr e s' os X [IH1 IH2] ST]; [split; intros ? ? ? ? ? []|]. apply step_case in ST. destruct (case_calls _ _ _ _ ST) as [C1 C2].
  split; intros n t l u x J; rewrite on_link_app; apply in_app_or in J as [J|J].
  - apply in_or_app. left. exact (IH1 _ _ _ _ _ J).
  - apply in_map_iff in J as (o & E & J). injection E as <- ->. apply in_or_app. right. apply at_link. apply in_map. exact (C1 _ _ _ _ J).
  - destruct (IH2 _ _ _ _ _ J) as (r0 & -> & I). exists r0. split; [reflexivity|]. apply in_or_app. left. exact I.
  - apply in_map_iff in J as (o & E & J). injection E as <- ->. destruct (C2 _ _ _ _ J) as (r0 & -> & I). exists r0. split; [reflexivity|]. apply in_or_app. right. apply at_link. apply in_map. exact I.
Qed.
End Pairs.

Local Ltac same_ty := let a := fresh in let I := fresh in let N := fresh in intros a I N; revert N; cbn in I;
  repeat (destruct I as [<-|I]; [cbn; intros N; first [discriminate N|reflexivity]|]); contradiction I.
Local Ltac arg := first [apply AB_int|apply AB_ub|apply AB_bits|apply AB_res|apply AB_flag|apply AB_bytes|apply AB_ip]; try (cbn; lia).
Local Ltac all_args := repeat first [ eapply AR_set; [reflexivity|reflexivity|arg|same_ty|] | eapply AR_unset; [reflexivity|cbn [a_ty]; apply DB_res|] ]; try apply AR_nil.
Lemma solicit_bytes n bs : solicit n = Ok bs -> byte n -> bs = [88; 4; 0; n].
Proof.
  unfold solicit, byte. intros S B.
  eassert (A : args m_ZipND_ZipInvNodeSolicitation [("local", VBool false); ("nodeId", VInt n)] (s_attrs m_ZipND_ZipInvNodeSolicitation) _) by (cbn [s_attrs m_ZipND_ZipInvNodeSolicitation]; all_args).
  destruct (new_msg_encodes m_ZipND_ZipInvNodeSolicitation _ _ ltac:(in_registry) A) as (d & E & EN & _). rewrite E in S. cbn [bind] in S.
  destruct (proj1 EncodeProofs.compose_all _ _ EN) as (_ & bs' & C & BB & EB). rewrite C in S. injection S as <-. apply bits_of_inj; [exact BB| |].
  - repeat (constructor; [lia|]). constructor.
  - rewrite EB. reflexivity.
Qed.
Lemma found_story ord es s tr k t n ip : gexec ord gw0 es s tr -> In (k, GFound t n ip) tr -> exists h bs sent u m h' k0 k1 a b rest,
  own t tr = h ++ [GAsk t n bs sent; GSub t None u (CWait advert 3000); GBack t (AwCall None u) (Ok (GV m)); GFound t n ip] ++ h' /\ (byte n -> bs = [88; 4; 0; n]) /\
  on_link None tr = a ++ (k0, OCall u (CWait advert 3000)) :: b ++ (k1, ORet u (RMsg m)) :: rest /\ ip = getattr m "ipv6" /\ (only_lookup a b -> first_of advert b m).
Proof.
  intros X J. assert (JO : In (GFound t n ip) (own t tr)) by (apply (in_own t _ k); [exact J|cbn; apply Nat.eqb_refl]). destruct (own_task _ _ _ _ _ _ X JO) as (c & p & N).
  destruct (ip_story _ _ _ _ X _ _ _ N) as [F _]. apply in_split in JO as (x & h' & EO). destruct (F _ _ _ _ _ EO) as (h & bs & sent & u & m & -> & S & ->).
  change adv_hid with advert in *. rewrite EO in F.
  assert (JS : In (GSub t None u (CWait advert 3000)) (own t tr)) by (rewrite EO; apply in_or_app; left; apply in_or_app; right; right; left; reflexivity).
  assert (JB : In (GBack t (AwCall None u) (Ok (GV m))) (own t tr)) by (rewrite EO; apply in_or_app; left; apply in_or_app; right; right; right; left; reflexivity).
  apply own_in in JS as (_ & k0 & JS). apply own_in in JB as (_ & k1 & JB). destruct (pairs _ _ _ _ X) as [P1 P2]. apply P1 in JS. destruct (P2 _ _ _ _ _ JB) as (r0 & ER & JR).
  destruct (exec_linked _ _ _ _ X) as [_ XL]. destruct (XL None) as (evs & X0). 
  assert (r0 = RMsg m) as -> by (destruct (wait_returns _ _ _ _ _ _ _ _ _ X0 JS JR) as [(m' & ->)|(e & ->)]; [cbn in ER; injection ER as ->; reflexivity|discriminate]).
  destruct (call_then_ret _ _ _ _ _ _ _ _ X0 JS JR) as (a & b & rest & E). exists h, bs, sent, u, m, h', k0, k1, a, b, rest.
  split; [rewrite EO, <- app_assoc; reflexivity|]. split; [exact (solicit_bytes _ _ S)|]. split; [exact E|]. split; [reflexivity|]. intros [O1 O2]. exact (wait_trace _ _ _ _ _ _ _ _ _ _ _ _ X0 E O1 O2).
Qed.
