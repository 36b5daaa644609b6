(** The node table and node list reports (C43, C44). *)
From Coq Require Import String ZArith List Bool Lia.
From Verif Require Import Py BitStream Schema Registry Codec Waiter Conn SpecConn ConnLemmas ConnInv ConnCases ConnCut NodeProofs
  Gateway SpecGateway GatewayProofs GatewayLinks GatewayStory.
Import ListNotations.
Open Scope list_scope.
Open Scope string_scope.
Open Scope list_scope.
Open Scope Z_scope.

(** ** tasks that leave the table alone *)
Definition table_frame (f : frame) : bool := match f with FIp _ | FLink _ | FOpen _ _ | FSendTo _ _ _ _ | FMode _ | FModeSet | FNm _ => false | _ => true end.
Definition still (fs : list frame) : Prop := existsb table_frame fs = false.
Definition keeps (d : gdata) (g : go) : Prop :=
  d_nodes (gd g) = d_nodes d /\ existsb is_updated (gos g) = false /\ match snd g with AWait _ fs => still fs | ARet _ => True end.
Lemma still_app a b : still a -> still b -> still (a ++ b). Proof. unfold still. rewrite existsb_app. intros -> ->. reflexivity. Qed.
Lemma keeps_ret d r : keeps d (ret r d). Proof. repeat split. Qed.
Lemma keeps_from d d1 g : d_nodes d1 = d_nodes d -> keeps d1 g -> keeps d g. Proof. intros S (A & B). split; [congruence|exact B]. Qed.
Lemma upd_at l xs : existsb is_updated (map (GAt l) xs) = false. Proof. induction xs; auto. Qed.
Lemma keeps_sub t l c d : keeps d (sub t l c d).
Proof.
  destruct (sub t l c d) as [[d' os] a] eqn:E. destruct (sub_own _ _ _ _ _ _ _ E) as [(_ & -> & -> & ->)|(k & k' & xs & _ & _ & -> & -> & A)]; [repeat split|].
  split; [destruct l; reflexivity|]. split; [exact (upd_at l xs)|]. cbn. destruct A as [->|(e & -> & _)]; exact I || reflexivity.
Qed.
Lemma keeps_under d g fs k : keeps d g -> still fs -> (forall r d', keeps d' (k r d')) -> keeps d (under g fs k).
Proof.
  intros (G1 & G2 & G3) F K. destruct g as [[d1 os] [r|w gs]]; cbn [under gos gd fst snd] in *.
  - specialize (K r d1). destruct (k r d1) as [[d2 os2] a]. destruct K as (K1 & K2 & K3). cbn [gos gd fst snd] in *. split; [cbn; congruence|]. split; [cbn; rewrite existsb_app, G2, K2; reflexivity|exact K3].
  - split; [exact G1|]. split; [exact G2|]. apply still_app; assumption.
Qed.
Lemma keeps_frames d g fs : keeps d g -> still fs -> keeps d (match g with (d', os, AWait w gs) => (d', os, AWait w (gs ++ fs)) | (d', os, ARet r) => (d', os, ARet r) end).
Proof. intros G F. pose proof (keeps_under d g fs ret G F ltac:(intros; apply keeps_ret)) as Q. destruct g as [[d1 os] [r|w gs]]; [exact G|exact Q]. Qed.
Lemma keeps_ip t n d : keeps d (start_ip t n d).
Proof.
  unfold start_ip. destruct (solicit n) as [bs|e]; [|apply keeps_ret]. pose proof (keeps_frames d _ [FIp n] (keeps_sub t None (CWait adv_hid 3000) d) eq_refl) as (A & B & C).
  destruct (sub t None (CWait adv_hid 3000) d) as [[d' os] [r|w gs]]; (split; [exact A|]; split; [exact B|exact C]).
Qed.
Lemma keeps_mode t m tmo d : keeps d (start_mode t m tmo d).
Proof. unfold start_mode. apply (keeps_frames d (sub t None _ d) [FMode m]); [apply keeps_sub|reflexivity]. Qed.
Lemma keeps_nm t q d : keeps d (start_nm t q d).
Proof.
  unfold start_nm. cbv zeta. apply (keeps_from _ (set_nm (d_nm d + 1) d)); [reflexivity|]. destruct (nm_msg q _) as [m|e]; [|apply keeps_ret]. apply (keeps_frames _ (sub t None _ _) [FNm q]); [apply keeps_sub|reflexivity].
Qed.
Lemma keeps_link t n d : keeps d (start_link t n d).
Proof. unfold start_link. destruct (dget Z.eqb n (d_conns d)); [apply keeps_ret|]. apply keeps_under; [apply keeps_ip|reflexivity|]. intros; apply keeps_ret. Qed.
Section Table.
Variable ord : list Z -> list Z.
Notation gexec := (gexec ord).
Lemma keeps_frame t f r d : table_frame f = false -> keeps d (frame_step ord t f r d).
Proof.
  intros NF. destruct f; try discriminate; destruct r as [[v|l']|e]; cbn [frame_step]; try (destruct e; match goal with |- keeps _ (ret _ _) => apply keeps_ret end);
    try match goal with |- keeps _ (ret _ _) => apply keeps_ret | |- keeps _ (send_over _ _ _ _ _ _ _) => apply keeps_sub end.
  - repeat split.
  - destruct v; try apply keeps_ret. repeat split.
  - eapply keeps_from; [|apply keeps_ret]. reflexivity.
  - eapply keeps_from; [|apply keeps_ret]. reflexivity.
  - destruct (is_mode v mode); [apply keeps_ret|]. apply keeps_under; [|reflexivity|intros; apply keeps_ret]. change (new_msg m_ZipGateway_GatewayModeSet [("mode", VInt mode)]) with (Ok (VObj (CMsg m_ZipGateway_GatewayModeSet) [("mode", VI false 1 mode)])). apply keeps_sub.
Qed.
Lemma keeps_unwind t fs : still fs -> forall r d, keeps d (unwind ord t r fs d).
Proof.
  induction fs as [|f fs IH]; intros N r d; cbn [unwind]; [apply keeps_ret|]. unfold still in N. cbn in N. apply orb_false_iff in N as [N1 N2].
  pose proof (keeps_under d _ fs (fun r d => unwind ord t r fs d) (keeps_frame t f r d N1) N2 (IH N2)) as Q. unfold under in Q. destruct (frame_step ord t f r d) as [[d' os] [r'|w gs]]; exact Q.
Qed.
Lemma keeps_start t c d : touches c = false -> keeps d (start ord t c d).
Proof.
  intros A. destruct c; cbn [start touches] in *; try discriminate; [apply keeps_nm|apply keeps_ip|apply keeps_link| |apply keeps_mode].
  apply keeps_under; [apply keeps_link|reflexivity|]. intros [[?|?]|?] ?; try apply keeps_ret. apply keeps_sub.
Qed.
Lemma still_story es s tr : gexec gw0 es s tr -> forall t c w fs, nth_error (g_tasks s) t = Some (mkGT c (GWait w fs)) -> touches c = false -> still fs.
Proof.
  intros X t c w fs N. refine (proj1 (story ord (fun _ c p _ => match p with GWait w fs => touches c = false -> still fs | GDone _ => True end) _ _ es s tr X) t c _ N); clear.
  - intros t c d d' os a S. destruct a as [r|w fs]; cbn [pc_of]; [exact I|]. intros T. pose proof (keeps_start t c d T) as (_ & _ & K). rewrite S in K. exact K.
  - intros t c w fs r d d' os a h pre H _ U. destruct a as [r'|w' fs']; cbn [pc_of]; [exact I|]. intros T. pose proof (keeps_unwind t fs (H T) r d) as (_ & _ & K). rewrite U in K. exact K.
Qed.

(** ** the handler *)
Lemma loop_spec t ns : forall d d' os a, report_loop t ns d = (d', os, a) -> exists done rest, ns = done ++ rest /\ (forall m, In m done -> dmem Z.eqb m (d_nodes d) = true) /\ d_nodes d' = d_nodes d /\
  ((rest = [] /\ os = [GUpdated t] /\ a = ARet (Ok (GV VNone))) \/
   exists n rest', rest = n :: rest' /\ dmem Z.eqb n (d_nodes d) = false /\ existsb is_updated os = false /\ ((exists e, a = ARet (Err e)) \/ exists w, a = AWait w [FIp n; FReport n rest'])).
Proof.
  induction ns as [|n ns IH]; intros d d' os a E; cbn [report_loop] in E.
  - injection E as <- <- <-. exists [], []. split; [reflexivity|]. split; [intros m []|]. split; [reflexivity|]. left. auto.
  - destruct (dmem Z.eqb n (d_nodes d)) eqn:D.
    + destruct (IH _ _ _ _ E) as (done & rest & -> & A & B & C). exists (n :: done), rest. split; [reflexivity|]. split; [intros m [<-|J]; auto|]. split; [exact B|exact C].
    + exists [], (n :: ns). split; [reflexivity|]. split; [intros m []|]. pose proof (keeps_ip t n d) as (K1 & K2 & _). unfold start_ip in *. destruct (solicit n) as [bs|e].
      * destruct (sub t None (CWait adv_hid 3000) d) as [[d1 os1] a1] eqn:S. destruct (sub_own _ _ _ _ _ _ _ S) as [(H & _)|(k & k' & xs & _ & _ & -> & _ & A)]; [discriminate|].
        destruct A as [->|(e & -> & H & _)]; [|discriminate]. cbn [under] in E. injection E as <- <- <-. split; [exact K1|]. right. exists n, ns. split; [reflexivity|]. split; [exact D|]. split; [exact K2|]. right. eexists. reflexivity.
      * cbn in E. injection E as <- <- <-. split; [reflexivity|]. right. exists n, ns. split; [reflexivity|]. split; [exact D|]. split; [reflexivity|]. left. eauto.
Qed.
Lemma gexec_app s0 es1 s1 a es2 s b : gexec s0 es1 s1 a -> gexec s1 es2 s b -> gexec s0 (es1 ++ es2) s (a ++ b).
Proof. intros X Y. induction Y as [|es2 s b e s' os Y IH ST]; [rewrite !app_nil_r; exact X|]. rewrite !app_assoc. eapply GX_snoc; eassumption. Qed.
Lemma tasks_grow s e s' os : gcase ord s e s' os -> (length (g_tasks s) <= length (g_tasks s'))%nat /\ (forall t c, In (GCalled t c) os -> t = length (g_tasks s)).
Proof.
  intros C. destruct C as [e s' os ET ? NT|e c0 d os a pre S NT ?|e t0 c0 w fs r d1 d os a pre EN ? ? NT EU]; cbn [g_tasks]; rewrite ?app_length, ?upd_length, ?ET; cbn; (split; [lia|]); intros t c J.
  - rewrite Forall_forall in NT. specialize (NT _ J). discriminate NT.
  - apply in_app_or in J as [J|[J|J]]; [rewrite Forall_forall in NT; specialize (NT _ J); discriminate NT|congruence|]. exfalso. apply in_app_or in J as [J|J]; [|destruct a; [destruct J as [J|[]]; discriminate|exact J]].
    pose proof (start_ours _ _ _ _ _ _ _ S) as O. rewrite Forall_forall in O. exact (O _ J).
  - exfalso. apply in_app_or in J as [J|[J|J]]; [rewrite Forall_forall in NT; specialize (NT _ J); discriminate NT|discriminate|]. apply in_app_or in J as [J|J]; [|destruct a; [destruct J as [J|[]]; discriminate|exact J]].
    pose proof (unwind_ours _ _ _ _ _ _ _ _ EU) as O. rewrite Forall_forall in O. exact (O _ J).
Qed.
Lemma exec_grow s1 es s b : gexec s1 es s b -> (length (g_tasks s1) <= length (g_tasks s))%nat /\ forall k t c, In (k, GCalled t c) b -> (length (g_tasks s1) <= t)%nat.
Proof.
  induction 1 as [|es s b e s' os X [IH1 IH2] ST]; [split; [lia|intros k t c []]|]. destruct (tasks_grow _ _ _ _ (step_case _ _ _ _ _ ST)) as [G1 G2]. split; [lia|].
  intros k t c J. apply in_app_or in J as [J|J]; [exact (IH2 _ _ _ J)|]. apply in_map_iff in J as (o & E & J). injection E as _ ->. rewrite (G2 _ _ J). exact IH1.
Qed.
Lemma updates_app a b : updates (a ++ b) = (updates a + updates b)%nat. Proof. unfold updates. rewrite map_app, filter_app, app_length. reflexivity. Qed.
Lemma updates_stamp n os : updates (gstamp n os) = length (filter is_updated os). Proof. unfold updates, gstamp. rewrite map_map. cbn. rewrite map_id. reflexivity. Qed.
Lemma no_updates os : existsb is_updated os = false -> length (filter is_updated os) = 0%nat.
Proof. induction os as [|o os IH]; [reflexivity|]. cbn. destruct (is_updated o); [discriminate|exact IH]. Qed.
Lemma no_task_updated os : Forall no_task os -> existsb is_updated os = false.
Proof. induction 1 as [|o os H _ IH]; [reflexivity|]. cbn. rewrite IH. destruct o; try reflexivity. discriminate H. Qed.
Lemma said_updated t a : existsb is_updated (said t a) = false. Proof. destruct a; reflexivity. Qed.
Lemma step_updates n pre x os t a : Forall no_task pre -> is_updated x = false -> updates (gstamp n (pre ++ x :: os ++ said t a)) = length (filter is_updated os).
Proof.
  intros NT X. rewrite updates_stamp, filter_app, app_length, (no_updates pre) by (apply no_task_updated; exact NT). cbn [filter plus]. rewrite X, filter_app, app_length, (no_updates (said t a)) by apply said_updated. lia.
Qed.
(** the table while the report [l] is being handled: the nodes in [done] were looked at; [T] is the table before *)
Definition table (T : list (Z * val)) (l done : list Z) (t : nat) (b : gtrace) (nodes : list (Z * val)) : Prop :=
  (forall m, dmem Z.eqb m nodes = true -> In m l) /\ (forall m ip, In m l -> dget Z.eqb m T = Some ip -> dget Z.eqb m nodes = Some ip) /\ (forall m, In m done -> dmem Z.eqb m nodes = true) /\
  (forall m ip, dget Z.eqb m nodes = Some ip -> dget Z.eqb m T = Some ip \/ exists k, In (k, GFound t m ip) b).
Definition handling (T : list (Z * val)) (l : list Z) (t : nat) (b : gtrace) (nodes : list (Z * val)) (p : gpc) : Prop :=
  match p with
  | GWait w fs => exists done n rest, ord l = done ++ n :: rest /\ fs = [FIp n; FReport n rest] /\ dmem Z.eqb n nodes = false /\ table T l done t b nodes /\ updates b = 0%nat
  | GDone (Ok _) => table T l (ord l) t b nodes /\ updates b = 1%nat
  | GDone (Err _) => exists done n rest, ord l = done ++ n :: rest /\ dmem Z.eqb n nodes = false /\ table T l done t b nodes /\ updates b = 0%nat
  end.
Lemma table_app T l done t b b' nodes : table T l done t b nodes -> table T l done t (b ++ b') nodes.
Proof. intros (A & B & C & D). repeat split; auto. intros m ip G. destruct (D _ _ G) as [H|(k & J)]; [auto|]. right. exists k. apply in_or_app. auto. Qed.
Lemma handling_app T l t b b' nodes p : handling T l t b nodes p -> updates b' = 0%nat -> handling T l t (b ++ b') nodes p.
Proof.
  intros H U. destruct p as [w fs|[v|e]]; cbn in *.
  - destruct H as (done & n & rest & A & B & X & C & D). exists done, n, rest. rewrite updates_app. split; [exact A|]. split; [exact B|]. split; [exact X|]. split; [apply table_app; exact C|lia].
  - destruct H as (A & B). rewrite updates_app. split; [apply table_app; exact A|lia].
  - destruct H as (done & n & rest & A & X & C & D). exists done, n, rest. rewrite updates_app. split; [exact A|]. split; [exact X|]. split; [apply table_app; exact C|lia].
Qed.
(** one run of the loop *)
Lemma handling_loop T l t b done ns d d' os a : ord l = done ++ ns -> report_loop t ns d = (d', os, a) -> table T l done t b (d_nodes d) -> updates b = length (filter is_updated os) -> handling T l t b (d_nodes d') (pc_of a).
Proof.
  intros E R (A & B & C & D) UP. destruct (loop_spec _ _ _ _ _ _ R) as (done' & rest & -> & C' & -> & K).
  assert (TB : table T l (done ++ done') t b (d_nodes d)).
  { split; [exact A|]. split; [exact B|]. split; [|exact D]. intros m J. apply in_app_or in J as [J|J]; auto. }
  destruct K as [(-> & EO & ->)|(n & rest' & -> & DM & NU & [(e & ->)|(w & ->)])].
  - cbn [pc_of handling]. rewrite app_nil_r in E. rewrite E. split; [exact TB|]. rewrite UP, EO. reflexivity.
  - cbn [pc_of handling]. exists (done ++ done'), n, rest'. rewrite E, app_assoc. split; [reflexivity|]. split; [exact DM|]. split; [exact TB|]. rewrite UP. apply no_updates. exact NU.
  - cbn [pc_of handling]. exists (done ++ done'), n, rest'. rewrite E, app_assoc. split; [reflexivity|]. split; [reflexivity|]. split; [exact DM|]. split; [exact TB|]. rewrite UP. apply no_updates. exact NU.
Qed.
Lemma dget_filter (f : Z -> bool) T m : dget Z.eqb m (filter (fun e : Z * val => f (fst e)) T) = if f m then dget Z.eqb m T else None.
Proof.
  induction T as [|[k v] T IH]; cbn; [destruct (f m); reflexivity|]. destruct (f k) eqn:F; cbn; destruct (Z.eqb_spec m k) as [->|NE]; rewrite ?F in *; try reflexivity; try exact IH.
Qed.
Lemma in_existsb m l : existsb (Z.eqb m) l = true <-> In m l.
Proof. rewrite existsb_exists. split; [intros (x & J & E); apply Z.eqb_eq in E; subst; exact J|intros J; exists m; split; [exact J|apply Z.eqb_refl]]. Qed.
Lemma table_start T l t b : table T l [] t b (filter (fun e => existsb (Z.eqb (fst e)) l) T).
Proof.
  split; [|split; [|split]].
  - intros m D. unfold dmem in D. rewrite (dget_filter (fun k => existsb (Z.eqb k) l)) in D. destruct (existsb (Z.eqb m) l) eqn:E; [apply in_existsb; exact E|discriminate].
  - intros m ip J G. rewrite (dget_filter (fun k => existsb (Z.eqb k) l)). rewrite (proj2 (in_existsb m l) J). exact G.
  - intros m [].
  - intros m ip G. left. rewrite (dget_filter (fun k => existsb (Z.eqb k) l)) in G. destruct (existsb (Z.eqb m) l); [exact G|discriminate].
Qed.
Hypothesis ITER : iterates ord.
Lemma handler s1 es s b t l : gexec s1 es s b -> forall es1 a, gexec gw0 es1 s1 a -> (length (g_tasks s1) <= t)%nat -> undisturbed t (a ++ b) b ->
  (nth_error (g_tasks s) t = None -> d_nodes (g_d s) = d_nodes (g_d s1) /\ updates b = 0%nat) /\
  forall p, nth_error (g_tasks s) t = Some (mkGT (GReport (VNodeList l)) p) -> handling (d_nodes (g_d s1)) l t b (d_nodes (g_d s)) p.
Proof.
  intros Y es1 a X LT. induction Y as [|es s b e s' os Y IH ST]; intros UD.
  - split; [auto|]. intros p N. apply nth_lt in N. lia.
  - pose proof (gexec_app _ _ _ _ _ _ _ X Y) as XY. pose proof (gexec_app _ _ _ _ _ _ _ X (GX_snoc _ _ _ _ _ _ _ _ Y ST)) as XY'.
    assert (UD0 : undisturbed t (a ++ b) b) by (intros k o t' k' c J1 J2 J3 J4; apply (UD k o t' k' c); [apply in_or_app; auto|exact J2|exact J3|rewrite app_assoc; apply in_or_app; auto]).
    destruct (IH UD0) as [I1 I2]. set (n0 := g_now s) in *.
    assert (OTHER : forall t' c p, nth_error (g_tasks s') t' = Some (mkGT c p) -> (exists o, In o os /\ task_of o = Some t') -> t' <> t -> touches c = false).
    { intros t' c p N (o & J & T) NE. destruct (task_called _ _ _ _ _ _ _ XY' N) as (k' & C). apply (UD n0 o t' k' c); [apply in_or_app; right; apply in_map; exact J|exact T|exact NE|exact C]. }
    destruct (step_case _ _ _ _ _ ST) as [e s' os ET (_ & _ & SN & _) NT|e c d os a0 pre S NT ?|e t' c w fs r d1 d os a0 pre EN (_ & _ & SN & _) BK NT EU].
    + assert (U0 : updates (gstamp n0 os) = 0%nat) by (rewrite updates_stamp; apply no_updates; apply no_task_updated; exact NT). rewrite ET, SN. split.
      * intros N. destruct (I1 N) as [A B]. rewrite updates_app. split; [exact A|lia].
      * intros p N. apply handling_app; [exact (I2 _ N)|exact U0].
    + cbn [g_tasks g_d] in *. destruct (Nat.eq_dec t (length (g_tasks s))) as [E|NE].
      * assert (NN : nth_error (g_tasks s) t = None) by (apply nth_error_None; lia). destruct (I1 NN) as [A B]. rewrite nth_snoc, <- E, Nat.eqb_refl. split; [discriminate|]. intros p N. injection N as -> <-.
        rewrite <- E in S. cbn [start] in S. unfold start_report in S. eapply (handling_loop _ _ _ _ []); [reflexivity|exact S| |rewrite updates_app, B, step_updates by (exact NT || reflexivity); reflexivity]. cbn [d_nodes set_nodes]. rewrite A. apply table_start.
      * assert (T : touches c = false).
        { apply (OTHER (length (g_tasks s)) c (pc_of a0)); [rewrite nth_snoc, Nat.eqb_refl; reflexivity| |congruence]. eexists. split; [apply in_or_app; right; left; reflexivity|reflexivity]. }
        pose proof (keeps_start (length (g_tasks s)) c (g_d s) T) as (K1 & K2 & _). rewrite S in K1, K2. cbn in K1, K2. rewrite K1.
        assert (U0 : updates (gstamp n0 (pre ++ GCalled (length (g_tasks s)) c :: os ++ said (length (g_tasks s)) a0)) = 0%nat) by (rewrite step_updates by (exact NT || reflexivity); apply no_updates; exact K2).
        rewrite nth_snoc. destruct (Nat.eqb_spec t (length (g_tasks s))); [contradiction|]. split.
        -- intros N. destruct (I1 N) as [A B]. rewrite updates_app. split; [exact A|lia].
        -- intros p N. apply handling_app; [exact (I2 _ N)|exact U0].
    + cbn [g_tasks g_d] in *. destruct (Nat.eq_dec t t') as [<-|NE].
      * rewrite (nth_upd_same _ _ _ _ EN). split; [discriminate|]. intros p N. injection N as -> <-. specialize (I2 _ EN). cbn [handling] in I2. destruct I2 as (done & n & rest & E & -> & DM & TB & U).
        cbn [unwind] in EU. assert (BAD : forall e', d = d1 -> os = [] -> a0 = ARet (Err e') -> handling (d_nodes (g_d s1)) l t (b ++ gstamp n0 (pre ++ GBack t w r :: os ++ said t a0)) (d_nodes d) (pc_of a0)).
        { intros e' -> -> ->. cbn [pc_of handling]. rewrite SN. exists done, n, rest. split; [exact E|]. split; [exact DM|]. split; [apply table_app; exact TB|]. rewrite updates_app, U, step_updates by (exact NT || reflexivity). reflexivity. }
        destruct r as [[m|l']|e'].
        -- cbn [frame_step] in EU. destruct (report_loop t rest (set_nodes (dset Z.eqb n (getattr m "ipv6") (d_nodes d1)) d1)) as [[d2 os2] a2] eqn:R.
           assert (EU' : (d2, GFound t n (getattr m "ipv6") :: os2, a2) = (d, os, a0)) by (destruct a2; cbn in EU; rewrite ?app_nil_r in EU; exact EU). injection EU' as -> <- ->.
           apply (handling_loop _ _ _ _ (done ++ [n]) rest _ _ _ _) with (2 := R); [rewrite <- app_assoc; exact E| |rewrite updates_app, U, step_updates by (exact NT || reflexivity); reflexivity].
           cbn [d_nodes set_nodes]. rewrite SN. destruct TB as (T1 & T2 & T3 & T4).
           assert (NL : In n l) by (apply ITER; rewrite E; apply in_or_app; right; left; reflexivity).
           assert (DG : forall m', dget Z.eqb m' (dset Z.eqb n (getattr m "ipv6") (d_nodes (g_d s))) = if Z.eqb m' n then Some (getattr m "ipv6") else dget Z.eqb m' (d_nodes (g_d s))) by (intros m'; apply dget_dset).
           split; [|split; [|split]].
           ++ intros m' H. unfold dmem in H. rewrite DG in H. destruct (Z.eqb_spec m' n) as [EQ|N1]; [subst m'; exact NL|]. exact (T1 _ H).
           ++ intros m' ip J G. rewrite DG. destruct (Z.eqb_spec m' n) as [EQ|N1]; [|exact (T2 _ _ J G)]. subst m'. unfold dmem in DM. rewrite (T2 _ _ J G) in DM. discriminate DM.
           ++ intros m' J. unfold dmem. rewrite DG. destruct (Z.eqb_spec m' n) as [EQ|N1]; [reflexivity|]. apply in_app_or in J as [J|[J|[]]]; [exact (T3 _ J)|congruence].
           ++ intros m' ip G. rewrite DG in G. destruct (Z.eqb_spec m' n) as [EQ|N1].
              ** subst m'. injection G as <-. right. exists n0. apply in_or_app. right. apply in_map. apply in_or_app. right. right. left. reflexivity.
              ** destruct (T4 _ _ G) as [H|(k & J)]; [auto|]. right. exists k. apply in_or_app. auto.
        -- apply (BAD EUnmodelled); injection EU as <- <- <-; reflexivity.
        -- assert (E1 : forall f, (f = FIp n \/ f = FReport n rest) -> frame_step ord t f (Err e') d1 = ret (Err e') d1) by (intros f [->| ->]; destruct e'; reflexivity).
           rewrite (E1 (FIp n)) in EU by auto. cbn [ret] in EU. rewrite (E1 (FReport n rest)) in EU by auto. cbn [ret] in EU. injection EU as <- <- <-. apply (BAD e'); reflexivity.
      * assert (T : touches c = false).
        { apply (OTHER t' c (pc_of a0)); [rewrite (nth_upd_same _ _ _ _ EN); reflexivity| |congruence]. eexists. split; [apply in_or_app; right; left; reflexivity|reflexivity]. }
        pose proof (keeps_unwind t' fs (still_story _ _ _ XY _ _ _ _ EN T) r d1) as (K1 & K2 & _). rewrite EU in K1, K2. cbn in K1, K2. rewrite K1, SN.
        assert (U0 : updates (gstamp n0 (pre ++ GBack t' w r :: os ++ said t' a0)) = 0%nat) by (rewrite step_updates by (exact NT || reflexivity); apply no_updates; exact K2).
        rewrite nth_upd_other by congruence. split.
        -- intros N. destruct (I1 N) as [A B]. rewrite updates_app. split; [exact A|lia].
        -- intros p N. apply handling_app; [exact (I2 _ N)|exact U0].
Qed.
Lemma report_done es1 s1 a es s b t l k k' v : gexec gw0 es1 s1 a -> gexec s1 es s b -> undisturbed t (a ++ b) b -> In (k, GCalled t (GReport (VNodeList l))) b -> In (k', GRet t (Ok v)) b ->
  (forall n, known s n <> None <-> In n l) /\ (forall n ip, In n l -> known s1 n = Some ip -> known s n = Some ip) /\
  (forall n, In n l -> known s1 n = None -> exists k'' ip, In (k'', GFound t n ip) b /\ known s n = Some ip) /\ updates b = 1%nat.
Proof.
  intros X Y UD C R. pose proof (gexec_app _ _ _ _ _ _ _ X Y) as XY. destruct (exec_grow _ _ _ _ Y) as [_ LT]. specialize (LT _ _ _ C). destruct (handler _ _ _ _ t l Y _ _ X LT UD) as [_ H].
  destruct (called_call _ _ _ _ _ _ k XY ltac:(apply in_or_app; right; exact C)) as (p & N). destruct (returned_done _ _ _ _ _ _ k' XY ltac:(apply in_or_app; right; exact R)) as (c & N'). rewrite N in N'. injection N' as <- ->.
  destruct (H _ N) as ((T1 & T2 & T3 & T4) & U). unfold known. split; [|split; [exact T2|split; [|exact U]]].
  - intros n. split; [intros G; apply T1; unfold dmem; destruct (dget Z.eqb n (d_nodes (g_d s))); [reflexivity|congruence]|]. intros J G. apply ITER in J. specialize (T3 _ J). unfold dmem in T3. rewrite G in T3. discriminate T3.
  - intros n J G. apply ITER in J. specialize (T3 _ J). unfold dmem in T3. destruct (dget Z.eqb n (d_nodes (g_d s))) as [ip|] eqn:E; [|discriminate]. destruct (T4 _ _ E) as [H1|(k2 & H1)]; [congruence|]. eauto.
Qed.
Lemma report_failed es1 s1 a es s b t l k k' e : gexec gw0 es1 s1 a -> gexec s1 es s b -> undisturbed t (a ++ b) b -> In (k, GCalled t (GReport (VNodeList l))) b -> In (k', GRet t (Err e)) b ->
  (forall n, known s n <> None -> In n l) /\ (forall n ip, In n l -> known s1 n = Some ip -> known s n = Some ip) /\
  (forall n ip, known s n = Some ip -> known s1 n = Some ip \/ exists k'', In (k'', GFound t n ip) b) /\ updates b = 0%nat /\
  exists before n after, ord l = before ++ n :: after /\ known s n = None /\ forall m, In m before -> known s m <> None.
Proof.
  intros X Y UD C R. pose proof (gexec_app _ _ _ _ _ _ _ X Y) as XY. destruct (exec_grow _ _ _ _ Y) as [_ LT]. specialize (LT _ _ _ C). destruct (handler _ _ _ _ t l Y _ _ X LT UD) as [_ H].
  destruct (called_call _ _ _ _ _ _ k XY ltac:(apply in_or_app; right; exact C)) as (p & N). destruct (returned_done _ _ _ _ _ _ k' XY ltac:(apply in_or_app; right; exact R)) as (c & N'). rewrite N in N'. injection N' as <- ->.
  destruct (H _ N) as (done & n & rest & E & DM & (T1 & T2 & T3 & T4) & U). unfold known.
  assert (DK : forall m, dmem Z.eqb m (d_nodes (g_d s)) = true <-> dget Z.eqb m (d_nodes (g_d s)) <> None) by (intros m; unfold dmem; destruct (dget Z.eqb m (d_nodes (g_d s))); split; congruence).
  split; [intros m G; apply T1; apply DK; exact G|]. split; [exact T2|]. split; [exact T4|]. split; [exact U|]. exists done, n, rest. split; [exact E|]. split; [|intros m J; apply DK; exact (T3 _ J)].
  destruct (dget Z.eqb n (d_nodes (g_d s))) eqn:G; [|reflexivity]. unfold dmem in DM. rewrite G in DM. discriminate DM.
Qed.
End Table.
