(** Connections to nodes (C41). *)
From Coq Require Import String ZArith List Bool Lia.
From Verif Require Import Py BitStream Schema Registry Codec Waiter Conn SpecConn ConnLemmas ConnInv ConnCases ConnCut
  Gateway SpecGateway GatewayProofs GatewayLinks GatewayStory.
Import ListNotations.
Open Scope list_scope.
Open Scope string_scope.
Open Scope list_scope.
Open Scope Z_scope.

(** ** everything but connectToNode and sendToNode *)
Definition link_frame (f : frame) : bool := match f with FLink _ | FOpen _ _ | FSendTo _ _ _ _ => true | _ => false end.
Definition plain (fs : list frame) : Prop := existsb link_frame fs = false.
Definition no_link (o : gobs) : Prop := match o with GNew _ _ _ _ | GSub _ (Some _) _ _ | GBack _ _ _ | GCalled _ _ | GTold _ _ _ _ _ => False | _ => True end.
Definition same_conns (d d' : gdata) : Prop := d_conns d' = d_conns d /\ length (d_links d') = length (d_links d).
Definition tame (d : gdata) (g : go) : Prop :=
  same_conns d (gd g) /\ Forall no_link (gos g) /\ match snd g with AWait w fs => plain fs /\ (forall l, w <> AwOpen (Some l)) | ARet _ => True end.
Lemma same_conns_refl d : same_conns d d. Proof. split; reflexivity. Qed.
Lemma same_conns_trans a b c : same_conns a b -> same_conns b c -> same_conns a c. Proof. intros [A1 A2] [B1 B2]. split; congruence. Qed.
Lemma plain_app a b : plain a -> plain b -> plain (a ++ b). Proof. unfold plain. rewrite existsb_app. intros -> ->. reflexivity. Qed.
Lemma tame_ret d r : tame d (ret r d). Proof. repeat split; constructor. Qed.
Lemma tame_from d d1 g : same_conns d d1 -> tame d1 g -> tame d g. Proof. intros S (A & B & C). split; [exact (same_conns_trans _ _ _ S A)|]. split; assumption. Qed.
Lemma no_link_at l xs : Forall no_link (map (GAt l) xs). Proof. apply Forall_forall. intros x J. apply in_map_iff in J as (? & <- & _). exact I. Qed.
Lemma sub_same t l c d : same_conns d (gd (sub t l c d)).
Proof.
  destruct (sub t l c d) as [[d' os] a] eqn:E. cbn. destruct (sub_own _ _ _ _ _ _ _ E) as [(_ & _ & _ & ->)|(k & k' & xs & _ & _ & _ & -> & _)]; [apply same_conns_refl|].
  destruct l; cbn; split; cbn; rewrite ?upd_length; reflexivity.
Qed.
Lemma tame_sub t c d : tame d (sub t None c d).
Proof.
  split; [apply sub_same|]. destruct (sub t None c d) as [[d' os] a] eqn:E. cbn. destruct (sub_own _ _ _ _ _ _ _ E) as [(_ & -> & -> & _)|(k & k' & xs & _ & _ & -> & _ & A)]; [split; constructor|].
  split; [constructor; [exact I|apply no_link_at]|]. destruct A as [->|(e & -> & _)]; [split; [reflexivity|discriminate]|exact I].
Qed.
Lemma tame_under d g fs k : tame d g -> plain fs -> (forall r d', tame d' (k r d')) -> tame d (under g fs k).
Proof.
  intros (G1 & G2 & G3) F K. destruct g as [[d1 os] [r|w gs]]; cbn [under gos gd fst snd] in *.
  - specialize (K r d1). destruct (k r d1) as [[d2 os2] a]. destruct K as (K1 & K2 & K3). cbn [gos gd fst snd] in *. split; [exact (same_conns_trans _ _ _ G1 K1)|]. split; [apply Forall_app; split; assumption|exact K3].
  - split; [exact G1|]. split; [exact G2|]. cbn. split; [apply plain_app; tauto|tauto].
Qed.
Lemma tame_frames d g fs : tame d g -> plain fs -> tame d (match g with (d', os, AWait w gs) => (d', os, AWait w (gs ++ fs)) | (d', os, ARet r) => (d', os, ARet r) end).
Proof. intros G F. pose proof (tame_under d g fs ret G F ltac:(intros; apply tame_ret)) as Q. destruct g as [[d1 os] [r|w gs]]; [exact G|exact Q]. Qed.
Lemma tame_ip t n d : tame d (start_ip t n d).
Proof.
  unfold start_ip. destruct (solicit n) as [bs|e]; [|apply tame_ret]. pose proof (tame_frames d _ [FIp n] (tame_sub t (CWait adv_hid 3000) d) eq_refl) as (A & B & C).
  destruct (sub t None (CWait adv_hid 3000) d) as [[d' os] [r|w gs]]; (split; [exact A|]; split; [constructor; [exact I|exact B]|exact C]).
Qed.
Lemma tame_loop t ns : forall d, tame d (report_loop t ns d).
Proof.
  induction ns as [|n ns IH]; intros d; cbn [report_loop]; [split; [apply same_conns_refl|]; split; [repeat constructor|exact I]|]. destruct (dmem Z.eqb n (d_nodes d)); [apply IH|].
  apply tame_under; [apply tame_ip|reflexivity|]. intros [?|?] ?; apply tame_ret.
Qed.
Lemma tame_setup_loop t ns : forall d, tame d (setup_loop t ns d).
Proof.
  induction ns as [|n ns IH]; intros d; cbn [setup_loop]; [apply tame_ret|]. destruct (dget Z.eqb n (d_nodes d)) as [ip|]; [|apply tame_ret]. destruct (truthy ip); [apply IH|].
  apply tame_under; [apply tame_ip|reflexivity|]. intros [?|?] ?; apply tame_ret.
Qed.
Lemma tame_mode t m tmo d : tame d (start_mode t m tmo d).
Proof. unfold start_mode. apply (tame_frames d (sub t None _ d) [FMode m]); [apply tame_sub|reflexivity]. Qed.
Lemma tame_nm_ n d g : tame (set_nm n d) g -> tame d g. Proof. apply tame_from. split; reflexivity. Qed.
Lemma tame_list t d : tame d (start_list t d).
Proof.
  unfold start_list. destruct (d_nodes d); [|apply tame_ret]. cbv zeta. apply (tame_nm_ (d_nm d + 1)). destruct (new_msg _ _) as [m|e]; [|apply tame_ret].
  apply (tame_frames _ (sub t None _ _) [FList]); [apply tame_sub|reflexivity].
Qed.
Lemma tame_nm t q d : tame d (start_nm t q d).
Proof.
  unfold start_nm. cbv zeta. apply (tame_nm_ (d_nm d + 1)). destruct (nm_msg q _) as [m|e]; [|apply tame_ret]. apply (tame_frames _ (sub t None _ _) [FNm q]); [apply tame_sub|reflexivity].
Qed.
Section Node.
Variable ord : list Z -> list Z.
Notation gexec := (gexec ord).
Lemma tame_setup t r d : tame d (setup_nodes ord t r d).
Proof. unfold setup_nodes. destruct r as [[v|l]|e]; try apply tame_ret. destruct v; try apply tame_ret. apply tame_setup_loop. Qed.
Lemma tame_wait d w f : link_frame f = false -> (forall l, w <> AwOpen (Some l)) -> tame d (d, [], AWait w [f]).
Proof. intros F W. split; [apply same_conns_refl|]. split; [constructor|]. cbn. split; [unfold plain; cbn; rewrite F; reflexivity|exact W]. Qed.
Lemma tame_frame t f r d : link_frame f = false -> tame d (frame_step ord t f r d).
Proof.
  intros NF. destruct f; try discriminate; destruct r as [[v|l']|e]; cbn [frame_step]; try (destruct e; match goal with |- tame _ (ret _ _) => apply tame_ret end);
    try match goal with |- tame _ (ret _ _) => apply tame_ret | |- tame _ (setup_nodes _ _ _ _) => apply tame_setup | |- tame _ (under _ _ _) => apply tame_under end.
  all: try match goal with |- plain _ => reflexivity | |- tame _ (start_mode _ _ _ _) => apply tame_mode | |- tame _ (sub _ _ _ _) => apply tame_sub | |- tame _ (start_list _ _) => apply tame_list
       | |- tame _ (report_loop _ _ _) => eapply tame_from; [|apply tame_loop]; split; reflexivity | |- tame _ (setup_loop _ _ _) => eapply tame_from; [|apply tame_setup_loop]; split; reflexivity
       | |- tame _ (_, [], AWait AwListen [FListen]) => apply tame_wait; [reflexivity|discriminate] end.
  all: try match goal with |- forall _ _, tame _ _ => intros [?|?] ?; match goal with |- tame _ (ret _ _) => apply tame_ret | |- tame _ (setup_nodes _ _ _ _) => apply tame_setup | |- tame _ (_, _, _) => apply tame_wait; [reflexivity|discriminate] end end.
  - split; [apply same_conns_refl|]. split; [repeat constructor|exact I].
  - destruct (is_mode v mode); [apply tame_ret|]. apply tame_under; [|reflexivity|intros; apply tame_ret]. change (new_msg m_ZipGateway_GatewayModeSet [("mode", VInt mode)]) with (Ok (VObj (CMsg m_ZipGateway_GatewayModeSet) [("mode", VI false 1 mode)])). apply tame_sub.
  - destruct (getattr v "nodes"); (eapply tame_from; [|apply tame_ret]; split; reflexivity).
Qed.
Lemma tame_unwind t fs : plain fs -> forall r d, tame d (unwind ord t r fs d).
Proof.
  induction fs as [|f fs IH]; intros N r d; cbn [unwind]; [apply tame_ret|]. unfold plain in N. cbn in N. apply orb_false_iff in N as [N1 N2].
  pose proof (tame_under d _ fs (fun r d => unwind ord t r fs d) (tame_frame t f r d N1) N2 (IH N2)) as Q. unfold under in Q. destruct (frame_step ord t f r d) as [[d' os] [r'|w gs]]; exact Q.
Qed.
Lemma tame_start t c d : aims c = None -> tame d (start ord t c d).
Proof.
  intros A. destruct c; cbn [start aims] in *; try discriminate; [apply tame_nm|apply tame_list|apply tame_ip| |apply tame_mode|apply tame_wait; [reflexivity|discriminate]].
  unfold start_report. destruct nodes; try apply tame_ret. eapply tame_from; [|apply tame_loop]. split; reflexivity.
Qed.
Lemma link_start t n d d' os a : start_link t n d = (d', os, a) -> same_conns d d' /\ Forall no_link os /\
  ((exists l, a = ARet (Ok (GL l)) /\ os = [] /\ d' = d /\ dget Z.eqb n (d_conns d) = Some l) \/
   dget Z.eqb n (d_conns d) = None /\ ((exists e, a = ARet (Err e)) \/ exists u, a = AWait (AwCall None u) [FIp n; FLink n])).
Proof.
  unfold start_link. destruct (dget Z.eqb n (d_conns d)) as [l|].
  - intros E. injection E as <- <- <-. split; [apply same_conns_refl|]. split; [constructor|]. left. eauto.
  - pose proof (tame_ip t n d) as (T1 & T2 & T3). unfold start_ip in *. destruct (solicit n) as [bs|e].
    + destruct (sub t None (CWait adv_hid 3000) d) as [[d1 os1] a1] eqn:S. destruct (sub_own _ _ _ _ _ _ _ S) as [(H & _)|(k & k' & xs & _ & _ & -> & _ & A)]; [discriminate|].
      destruct A as [->|(e & -> & H & _)]; [|discriminate]. cbn [under]. intros E. injection E as <- <- <-. split; [exact T1|]. split; [exact T2|]. right. split; [reflexivity|]. right. eexists. reflexivity.
    + cbn. intros E. injection E as <- <- <-. split; [exact T1|]. split; [exact T2|]. right. split; [reflexivity|]. left. eauto.
Qed.
(** ** the invariant *)
Inductive link_pc (n : Z) (k : list frame) (tr : gtrace) : gpc -> Prop :=
| LP_ip w : (forall l, w <> AwOpen l) -> link_pc n k tr (GWait w (FIp n :: FLink n :: k))
| LP_open l : made n l tr -> link_pc n k tr (GWait (AwOpen (Some l)) (FOpen n l :: k)).
Definition rest_of (c : gcall) : list frame := match c with GSendTo _ cmd sep dep tmo => [FSendTo cmd sep dep tmo] | _ => [] end.
Definition shape (c : gcall) (p : gpc) (tr : gtrace) : Prop :=
  match aims c with
  | Some n => link_pc n (rest_of c) tr p \/ (exists r, p = GDone r) \/ exists l u, p = GWait (AwCall (Some l) u) []
  | None => match p with GWait w fs => plain fs /\ (forall l, w <> AwOpen (Some l)) | GDone _ => True end
  end.
Record linv (s : gw) (tr : gtrace) : Prop := {
  L1 : forall k t l n ip, In (k, GNew t l n ip) tr -> (l < length (d_links (g_d s)))%nat /\ exists c p, nth_error (g_tasks s) t = Some (mkGT c p) /\ aims c = Some n;
  L2 : forall l n n', made n l tr -> made n' l tr -> n = n';
  L3 : forall n l, In (n, l) (d_conns (g_d s)) -> made n l tr;
  L4 : forall k t l u c, In (k, GSub t (Some l) u c) tr -> exists k' n cmd sep dep tmo, In (k', GCalled t (GSendTo n cmd sep dep tmo)) tr /\ c = CSend cmd sep dep tmo /\ made n l tr;
  L5 : forall k l n ep cmd fl, In (k, GTold (Some l) n ep cmd fl) tr -> made n l tr;
  L6 : forall n, established n tr -> dmem Z.eqb n (d_conns (g_d s)) = true;
  L7 : forall t c p, nth_error (g_tasks s) t = Some (mkGT c p) -> shape c p tr;
  L9 : forall k t l v, In (k, GBack t (AwOpen (Some l)) (Ok v)) tr -> exists n, made n l tr;
  L8 : forall a k t c b n, tr = a ++ (k, GCalled t c) :: b -> aims c = Some n -> established n a ->
       (forall k' l n' ip, ~ In (k', GNew t l n' ip) tr) /\ forall p, nth_error (g_tasks s) t = Some (mkGT c p) -> ~ link_pc n (rest_of c) tr p }.

(** ** one step *)
Record facts (s s' : gw) (os : list gobs) (tr : gtrace) : Prop := {
  F0 : (length (d_links (g_d s)) <= length (d_links (g_d s')))%nat;
  F1 : forall t l n ip, In (GNew t l n ip) os -> l = length (d_links (g_d s)) /\ (l < length (d_links (g_d s')))%nat /\
       exists c p, nth_error (g_tasks s) t = Some (mkGT c p) /\ aims c = Some n /\ link_pc n (rest_of c) tr p;
  F1u : forall t l n ip t' l' n' ip', In (GNew t l n ip) os -> In (GNew t' l' n' ip') os -> n = n';
  F2 : forall n l, In (n, l) (d_conns (g_d s')) -> In (n, l) (d_conns (g_d s)) \/ made n l tr;
  F2k : forall n, dmem Z.eqb n (d_conns (g_d s)) = true -> dmem Z.eqb n (d_conns (g_d s')) = true;
  F3 : forall t l u c, In (GSub t (Some l) u c) os -> exists n cmd sep dep tmo p, nth_error (g_tasks s') t = Some (mkGT (GSendTo n cmd sep dep tmo) p) /\ c = CSend cmd sep dep tmo /\ made n l tr;
  F4 : forall t l v, In (GBack t (AwOpen (Some l)) (Ok v)) os -> exists n, made n l tr /\ dmem Z.eqb n (d_conns (g_d s')) = true;
  F6 : forall t c p, nth_error (g_tasks s') t = Some (mkGT c p) -> shape c p (tr ++ gstamp (g_now s) os);
  F7 : forall t c p', nth_error (g_tasks s') t = Some (mkGT c p') -> (exists p, nth_error (g_tasks s) t = Some (mkGT c p) /\ forall n k, link_pc n k (tr ++ gstamp (g_now s) os) p' -> link_pc n k tr p) \/
       t = length (g_tasks s) /\ forall n k, aims c = Some n -> dmem Z.eqb n (d_conns (g_d s)) = true -> ~ link_pc n k (tr ++ gstamp (g_now s) os) p';
  F8 : forall t c, In (GCalled t c) os -> t = length (g_tasks s) /\ exists p, nth_error (g_tasks s') t = Some (mkGT c p) }.
Lemma made_app n l a b : made n l a -> made n l (a ++ b). Proof. intros (k & t & ip & J). exists k, t, ip. apply in_or_app. auto. Qed.
Lemma link_pc_app n k a b p : link_pc n k a p -> link_pc n k (a ++ b) p. Proof. intros H. inversion H; subst; constructor; auto using made_app. Qed.
Lemma shape_app c p a b : shape c p a -> shape c p (a ++ b). Proof. unfold shape. destruct (aims c); [|tauto]. intros [H|H]; [left; apply link_pc_app; exact H|right; exact H]. Qed.
Lemma in_step pre x os t a o : Forall no_task pre -> task_of o <> None -> In o (pre ++ x :: os ++ said t a) -> o = x \/ In o os \/ In o (said t a).
Proof.
  intros F N J. apply in_app_or in J as [J|[J|J]]; [|auto|apply in_app_or in J; tauto]. rewrite Forall_forall in F. elim (N (F _ J)).
Qed.
Lemma not_said t a o : (forall r, o <> GRet t r) -> ~ In o (said t a). Proof. intros N J. destruct a; [destruct J as [J|[]]; exact (N _ (eq_sym J))|exact J]. Qed.
Lemma no_link_in os o : Forall no_link os -> In o os -> no_link o. Proof. rewrite Forall_forall. auto. Qed.
Local Ltac at_step F J := apply in_step in J; [|exact F|discriminate]; let H := fresh in destruct J as [J|[J|H]]; [try discriminate J| |exfalso; eapply not_said; [|exact H]; discriminate].
(** a task that does not touch the connections *)
Definition old_or_new (s s' : gw) (tr tr' : gtrace) : Prop := forall t c p', nth_error (g_tasks s') t = Some (mkGT c p') ->
  (exists p, nth_error (g_tasks s) t = Some (mkGT c p) /\ forall n k, link_pc n k tr' p' -> link_pc n k tr p) \/
  t = length (g_tasks s) /\ forall n k, aims c = Some n -> dmem Z.eqb n (d_conns (g_d s)) = true -> ~ link_pc n k tr' p'.
Lemma facts_tame s s' t y pre os a tr : same_conns (g_d s) (g_d s') -> Forall no_link os -> Forall no_task pre ->
  (exists c p, y = GCalled t c /\ t = length (g_tasks s) /\ nth_error (g_tasks s') t = Some (mkGT c p)) \/ (exists w r, y = GBack t w r /\ forall l v, w = AwOpen (Some l) -> r <> Ok v) ->
  (forall t' c p, nth_error (g_tasks s') t' = Some (mkGT c p) -> shape c p tr) -> old_or_new s s' tr (tr ++ gstamp (g_now s) (pre ++ y :: os ++ said t a)) -> facts s s' (pre ++ y :: os ++ said t a) tr.
Proof.
  intros [SC1 SC2] NL NT X T ON.
  assert (Y : forall o, In o (pre ++ y :: os ++ said t a) -> match o with GNew _ _ _ _ | GSub _ (Some _) _ _ | GBack _ (AwOpen (Some _)) (Ok _) => False | _ => True end).
  { intros o J. destruct o as [| |? [?|] ? ?|? [? ?|[?|]|] [?|?]| | | | | | | | | |]; try exact I; at_step NT J; try exact (no_link_in _ _ NL J).
    all: destruct X as [(cc & pp & -> & _)|(ww & rr & -> & NW)]; [discriminate J|]; first [discriminate J|injection J as _ <- <-; exact (NW _ _ eq_refl eq_refl)]. }
  split.
  - lia.
  - intros t0 l n ip J. elim (Y _ J).
  - intros t0 l n ip t1 l1 n1 ip1 J. elim (Y _ J).
  - intros n l J. rewrite SC1 in J. auto.
  - intros n J. rewrite SC1. exact J.
  - intros t0 l u c J. elim (Y _ J).
  - intros t0 l v J. elim (Y _ J).
  - intros t0 c p N. apply shape_app. exact (T _ _ _ N).
  - exact ON.
  - intros t0 c J. at_step NT J; [|elim (no_link_in _ _ NL J)]. destruct X as [(c0 & p0 & -> & -> & N)|(w & r & -> & _)]; [|discriminate J]. injection J as -> ->. eauto.
Qed.
Lemma keeps_pc c p tr tr' n k : shape c p tr -> link_pc n k tr' p -> link_pc n k tr p.
Proof.
  unfold shape. destruct (aims c) as [m|].
  - intros [SH|[(r & ->)|(l & u & ->)]] LP; [|inversion LP|inversion LP]. inversion SH; subst; inversion LP; subst; constructor; assumption.
  - intros SH LP. inversion LP; subst; destruct SH as [SH _]; discriminate.
Qed.
(** the other tasks stay as they are *)
Lemma others_new s d c p' tr tr' : linv s tr -> (forall n k, aims c = Some n -> dmem Z.eqb n (d_conns (g_d s)) = true -> ~ link_pc n k tr' p') -> old_or_new s (mkG d (g_tasks s ++ [mkGT c p'])) tr tr'.
Proof.
  intros L H t c0 p0 N. cbn [g_tasks] in N. rewrite nth_snoc in N. destruct (Nat.eqb_spec t (length (g_tasks s))) as [->|NE].
  - injection N as <- <-. right. split; [reflexivity|exact H].
  - left. exists p0. split; [exact N|]. intros n k. apply (keeps_pc c0). exact (L7 _ _ L _ _ _ N).
Qed.
Lemma others_old s d t c p p' tr tr' : linv s tr -> nth_error (g_tasks s) t = Some (mkGT c p) -> (forall n k, link_pc n k tr' p' -> link_pc n k tr p) -> old_or_new s (mkG d (upd t (mkGT c p') (g_tasks s))) tr tr'.
Proof.
  intros L N H t0 c0 p0 N0. cbn [g_tasks] in N0. left. destruct (Nat.eq_dec t0 t) as [->|NE].
  - rewrite (nth_upd_same _ _ _ _ N) in N0. injection N0 as <- <-. exists p. auto.
  - rewrite nth_upd_other in N0 by congruence. exists p0. split; [exact N0|]. intros n k. apply (keeps_pc c0). exact (L7 _ _ L _ _ _ N0).
Qed.
Lemma shapes_new s d c p' tr : linv s tr -> shape c p' tr -> forall t c0 p0, nth_error (g_tasks (mkG d (g_tasks s ++ [mkGT c p']))) t = Some (mkGT c0 p0) -> shape c0 p0 tr.
Proof.
  intros L H t c0 p0 N. cbn [g_tasks] in N. rewrite nth_snoc in N. destruct (Nat.eqb_spec t (length (g_tasks s))) as [->|NE]; [injection N as <- <-; exact H|exact (L7 _ _ L _ _ _ N)].
Qed.
Lemma shapes_old s d t c p p' tr : linv s tr -> nth_error (g_tasks s) t = Some (mkGT c p) -> shape c p' tr -> forall t0 c0 p0, nth_error (g_tasks (mkG d (upd t (mkGT c p') (g_tasks s)))) t0 = Some (mkGT c0 p0) -> shape c0 p0 tr.
Proof.
  intros L N H t0 c0 p0 N0. cbn [g_tasks] in N0. destruct (Nat.eq_dec t0 t) as [->|NE].
  - rewrite (nth_upd_same _ _ _ _ N) in N0. injection N0 as <- <-. exact H.
  - rewrite nth_upd_other in N0 by congruence. exact (L7 _ _ L _ _ _ N0).
Qed.
Lemma tame_shape c a tr : aims c = None -> match a with AWait w fs => plain fs /\ (forall l, w <> AwOpen (Some l)) | ARet _ => True end -> shape c (pc_of a) tr.
Proof. unfold shape. intros -> H. destruct a; exact H. Qed.
Lemma dmem_set {V} n (l : V) c m : m = n \/ dmem Z.eqb m c = true -> dmem Z.eqb m (dset Z.eqb n l c) = true.
Proof.
  unfold dmem. induction c as [|[k v] c IH]; cbn [dset dget]; intros H.
  - destruct H as [H|H]; [subst m; rewrite Z.eqb_refl; reflexivity|discriminate].
  - destruct (Z.eqb_spec n k) as [->|NE]; cbn [dget] in *; destruct (Z.eqb_spec m k) as [E2|N2]; try reflexivity; [destruct H; [contradiction|assumption]|]. apply IH. destruct H; auto.
Qed.
Lemma in_set {V} n (l : V) c x : In x (dset Z.eqb n l c) -> x = (n, l) \/ In x c.
Proof.
  induction c as [|[k v] c IH]; cbn [dset]; intros J; [destruct J as [<-|[]]; auto|]. destruct (Z.eqb_spec n k) as [->|NE]; destruct J as [<-|J]; cbn; auto. destruct (IH J); auto.
Qed.
Lemma err_rest t e c d : unwind ord t (Err e) (rest_of c) d = (d, [], ARet (Err e)). Proof. destruct c; cbn; destruct e; reflexivity. Qed.
(** a send over connection [l] *)
Lemma sub_link t l c d d' os a : sub t (Some l) c d = (d', os, a) -> same_conns d d' /\ (forall o, In o os -> match o with GAt _ _ => True | GSub t' l' _ c' => t' = t /\ l' = Some l /\ c' = c | _ => False end) /\
  ((exists r, pc_of a = GDone r) \/ exists l u, pc_of a = GWait (AwCall (Some l) u) []).
Proof.
  intros E. pose proof (sub_same t (Some l) c d) as S. rewrite E in S. cbn in S. split; [exact S|]. destruct (sub_own _ _ _ _ _ _ _ E) as [(_ & -> & -> & _)|(k & k' & xs & _ & _ & -> & _ & A)].
  - split; [intros o []|]. left. eexists. reflexivity.
  - split; [intros o [<-|J]; [auto|apply in_map_iff in J as (? & <- & _); exact I]|]. destruct A as [->|(e & -> & _)]; [right; do 2 eexists; reflexivity|left; eexists; reflexivity].
Qed.
Lemma step_facts s e s' os tr : linv s tr -> gcase ord s e s' os -> facts s s' os tr.
Proof.
  intros L C. destruct C as [e s' os ET (_ & _ & _ & ST4 & ST5) NT|e c d os a pre ES NT EV|e t c w fs r d1 d os a pre EN (_ & _ & _ & ST4 & ST5) BK NT EU].
  - rewrite Forall_forall in NT. assert (NO : forall o, task_of o <> None -> ~ In o os) by (intros o H J; exact (H (NT _ J))).
    split; try (intros; exfalso; eapply NO; [|eassumption]; discriminate).
    + lia.
    + intros n l J. rewrite ST4 in J. auto.
    + intros n J. rewrite ST4. exact J.
    + intros t c p N. rewrite ET in N. apply shape_app. exact (L7 _ _ L _ _ _ N).
    + intros t c p N. rewrite ET in N. left. exists p. split; [exact N|]. intros n k. apply (keeps_pc c). exact (L7 _ _ L _ _ _ N).
  - assert (NL : nth_error (g_tasks s ++ [mkGT c (pc_of a)]) (length (g_tasks s)) = Some (mkGT c (pc_of a))) by (rewrite nth_snoc, Nat.eqb_refl; reflexivity).
    destruct (aims c) as [n|] eqn:A.
    + assert (LK : (exists l sd, dget Z.eqb n (d_conns (g_d s)) = Some l /\ c = sd /\ match c with GSendTo _ cmd sep dep tmo => sub (length (g_tasks s)) (Some l) (CSend cmd sep dep tmo) (g_d s) = (d, os, a) | _ => d = g_d s /\ os = [] /\ a = ARet (Ok (GL l)) end) \/
         dget Z.eqb n (d_conns (g_d s)) = None /\ same_conns (g_d s) d /\ Forall no_link os /\ ((exists e, a = ARet (Err e)) \/ exists u, a = AWait (AwCall None u) (FIp n :: FLink n :: rest_of c))).
      { destruct c; cbn [aims start rest_of] in *; try discriminate; injection A as ->.
        - destruct (link_start _ _ _ _ _ _ ES) as (S1 & S2 & [(l & -> & -> & -> & G)|(G & O)]); [left; exists l; eauto 6|right; auto].
        - destruct (start_link (length (g_tasks s)) n (g_d s)) as [[d1 os1] a1] eqn:SL. destruct (link_start _ _ _ _ _ _ SL) as (S1 & S2 & [(l & -> & -> & -> & G)|(G & [(e' & ->)|(u & ->)])]); cbn [under] in ES.
          + left. exists l. eexists. split; [exact G|]. split; [reflexivity|]. unfold send_over in ES. destruct (sub _ _ _ _) as [[d2 os2] a2]. injection ES as <- <- <-. reflexivity.
          + right. cbn in ES. rewrite app_nil_r in ES. injection ES as <- <- <-. split; [exact G|]. split; [exact S1|]. split; [exact S2|]. eauto.
          + right. injection ES as <- <- <-. split; [exact G|]. split; [exact S1|]. split; [exact S2|]. right. eexists. reflexivity. }
      destruct LK as [(l & sd & G & _ & K)|(G & S1 & S2 & O)].
      * destruct c; cbn [aims] in A; try discriminate; injection A as ->.
        -- destruct K as (-> & -> & ->). apply facts_tame; [apply same_conns_refl|constructor|exact NT|left; do 2 eexists; eauto| |].
           ++ apply shapes_new; [exact L|]. right. left. eexists. reflexivity.
           ++ apply others_new; [exact L|]. intros ? ? _ _ LP. inversion LP.
        -- destruct (sub_link _ _ _ _ _ _ _ K) as ([SC1 SC2] & SO & SP). pose proof (L3 _ _ L n l) as M.
           assert (J : In (n, l) (d_conns (g_d s))) by (apply dget_in in G; exact G). specialize (M J).
           assert (ON : ~ exists n' k', link_pc n' k' (tr ++ gstamp (g_now s) (pre ++ GCalled (length (g_tasks s)) (GSendTo n cmd sep dep tmo) :: os ++ said (length (g_tasks s)) a)) (pc_of a)).
           { intros (n' & k' & LP). destruct SP as [(r & E)|(l' & u & E)]; rewrite E in LP; inversion LP. }
           split; cbn [g_d g_tasks].
           ++ lia.
           ++ intros t0 l0 n0 ip J0. at_step NT J0. elim (SO _ J0).
           ++ intros t0 l0 n0 ip t1 l1 n1 ip1 J0. at_step NT J0. elim (SO _ J0).
           ++ intros n0 l0 J0. rewrite SC1 in J0. auto.
           ++ intros n0 J0. rewrite SC1. exact J0.
           ++ intros t0 l0 u0 c0 J0. at_step NT J0. destruct (SO _ J0) as (-> & E & ->). injection E as ->. do 6 eexists. split; [exact NL|]. auto.
           ++ intros t0 l0 v J0. at_step NT J0. elim (SO _ J0).
           ++ intros t0 c0 p0 N0. apply shape_app. revert t0 c0 p0 N0. apply (shapes_new s d); [exact L|]. right. exact SP.
           ++ apply (others_new s d); [exact L|]. intros n0 k0 _ _ LP. apply ON. eauto.
           ++ intros t0 c0 J0. at_step NT J0; [|elim (SO _ J0)]. injection J0 as -> ->. eauto.
      * apply facts_tame; [exact S1|exact S2|exact NT|left; do 2 eexists; eauto| |].
        -- apply shapes_new; [exact L|]. unfold shape. rewrite A. destruct O as [(e' & ->)|(u & ->)]; [right; left; eexists; reflexivity|left; apply LP_ip; discriminate].
        -- apply others_new; [exact L|]. intros n0 k0 E D _. rewrite A in E. injection E as <-. unfold dmem in D. rewrite G in D. discriminate.
    + pose proof (tame_start (length (g_tasks s)) c (g_d s) A) as (T1 & T2 & T3). rewrite ES in T1, T2, T3. cbn in T1, T2, T3.
      apply facts_tame; [exact T1|exact T2|exact NT|left; do 2 eexists; eauto| |].
      * apply shapes_new; [exact L|]. apply tame_shape; [exact A|exact T3].
      * apply others_new; [exact L|]. intros ? ? E. congruence.
  - pose proof (L7 _ _ L _ _ _ EN) as SH. unfold shape in SH.
    assert (SC0 : same_conns (g_d s) d1) by (split; assumption).
    assert (NU : nth_error (upd t (mkGT c (pc_of a)) (g_tasks s)) t = Some (mkGT c (pc_of a))) by exact (nth_upd_same _ _ _ _ EN).
    assert (TM : same_conns d1 d -> Forall no_link os -> (forall l v, w = AwOpen (Some l) -> r <> Ok v) -> shape c (pc_of a) tr -> (forall tr' n k, ~ link_pc n k tr' (pc_of a)) ->
      facts s (mkG d (upd t (mkGT c (pc_of a)) (g_tasks s))) (pre ++ GBack t w r :: os ++ said t a) tr).
    { intros T1 T2 T3 T4 T5. apply facts_tame; [exact (same_conns_trans _ _ _ SC0 T1)|exact T2|exact NT|right; eauto| |].
      - exact (shapes_old _ _ _ _ _ _ _ L EN T4).
      - apply (others_old s d t c (GWait w fs)); [exact L|exact EN|]. intros n k LP. elim (T5 _ _ _ LP). }
    assert (DN : (exists r0, pc_of a = GDone r0) -> shape c (pc_of a) tr /\ forall tr' n k, ~ link_pc n k tr' (pc_of a)).
    { intros (r0 & E). rewrite E. split; [|intros tr' n k LP; inversion LP]. unfold shape. destruct (aims c); [right; left; eauto|exact I]. }
    destruct (aims c) as [n|] eqn:A.
    + destruct SH as [SH|[(r0 & E)|(l & u & E)]]; [|discriminate E|].
      * remember (GWait w fs) as p eqn:EP in SH. destruct SH as [w0 NW|l M]; injection EP as E1 E2; [subst w0 fs|subst w fs].
        -- assert (K : (d = d1 /\ Forall no_link os /\ exists e, a = ARet (Err e)) \/ exists ip x, d = set_links (d_links d1 ++ [new_conn d1]) d1 /\ os = [GFound t n x; GNew t (length (d_links d1)) n ip] /\
               a = AWait (AwOpen (Some (length (d_links d1)))) (FOpen n (length (d_links d1)) :: rest_of c)).
           { cbn [unwind] in EU. destruct r as [[m|l]|e'].
             - cbn [frame_step] in EU. destruct (getattr m "ipv6") eqn:IPV; cbn [frame_step ret] in EU; rewrite ?err_rest in EU; cbn in EU; injection EU as <- <- <-;
                 try (left; split; [reflexivity|]; split; [repeat constructor|]; eexists; reflexivity).
               right. do 2 eexists. split; [reflexivity|]. split; reflexivity.
             - cbn [frame_step ret] in EU. rewrite err_rest in EU. cbn in EU. injection EU as <- <- <-. left. split; [reflexivity|]. split; [repeat constructor|]. eexists. reflexivity.
             - assert (E1 : forall f, (f = FIp n \/ f = FLink n) -> frame_step ord t f (Err e') d1 = ret (Err e') d1) by (intros f [->| ->]; destruct e'; reflexivity).
               rewrite (E1 (FIp n)) in EU by auto. cbn [ret] in EU. rewrite (E1 (FLink n)) in EU by auto. cbn [ret] in EU. rewrite err_rest in EU. cbn in EU. injection EU as <- <- <-. left. split; [reflexivity|]. split; [repeat constructor|]. eexists. reflexivity. }
           destruct K as [(-> & NL & e' & ->)|(ip & x & -> & -> & ->)].
           ++ destruct (DN ltac:(eexists; reflexivity)) as [D1 D2]. apply TM; [apply same_conns_refl|exact NL|intros l v E; elim (NW _ E)|exact D1|exact D2].
           ++ assert (LPN : forall X, link_pc n (rest_of c) X (GWait w (FIp n :: FLink n :: rest_of c))) by (intros X; apply LP_ip; exact NW).
              assert (IN : forall o, In o (pre ++ GBack t w r :: [GFound t n x; GNew t (length (d_links d1)) n ip] ++ said t (AWait (AwOpen (Some (length (d_links d1)))) (FOpen n (length (d_links d1)) :: rest_of c))) -> task_of o <> None ->
                  o = GBack t w r \/ o = GFound t n x \/ o = GNew t (length (d_links d1)) n ip).
              { intros o J NN. apply in_step in J; [|exact NT|exact NN]. destruct J as [J|[[J|[J|[]]]|[]]]; auto. }
              split; cbn [g_d g_tasks set_links d_links d_conns].
              ** rewrite app_length. cbn. lia.
              ** intros t0 l0 n0 ip0 J. apply IN in J; [|discriminate]. destruct J as [J|[J|J]]; try discriminate. injection J as -> -> -> _. split; [congruence|]. split; [rewrite app_length; cbn; lia|]. exists c, (GWait w (FIp n :: FLink n :: rest_of c)). auto.
              ** intros t0 l0 n0 ip0 t3 l3 n3 ip3 J0 J3. apply IN in J0; [|discriminate]. apply IN in J3; [|discriminate]. destruct J0 as [J|[J|J]]; try discriminate. destruct J3 as [J3|[J3|J3]]; try discriminate. congruence.
              ** intros n0 l0 J. rewrite ST4 in J. auto.
              ** intros n0 J. rewrite ST4. exact J.
              ** intros t0 l0 u0 c0 J. apply IN in J; [|discriminate]. destruct J as [J|[J|J]]; discriminate.
              ** intros t0 l0 v0 J. apply IN in J; [|discriminate]. destruct J as [J|[J|J]]; try discriminate. injection J as _ <- _. elim (NW _ eq_refl).
              ** intros t0 c0 p0 N0. destruct (Nat.eq_dec t0 t) as [->|NE].
                 --- rewrite NU in N0. injection N0 as <- <-. unfold shape. rewrite A. left. apply LP_open. exists (g_now s), t, ip. apply in_or_app. right. apply in_map. apply in_or_app. right. right. right. left. reflexivity.
                 --- rewrite nth_upd_other in N0 by congruence. apply shape_app. exact (L7 _ _ L _ _ _ N0).
              ** eapply (others_old s d1 t c (GWait w (FIp n :: FLink n :: rest_of c))); [exact L|exact EN|]. intros n0 k0 LP. cbn [pc_of] in LP. inversion LP; subst. apply LP_ip. exact NW.
              ** intros t0 c0 J. apply IN in J; [|discriminate]. destruct J as [J|[J|J]]; discriminate.
        -- destruct r as [v|e'].
           ++ assert (K : match c with GSendTo _ cmd sep dep tmo => sub t (Some l) (CSend cmd sep dep tmo) (set_conns (dset Z.eqb n l (d_conns d1)) d1) = (d, os, a)
                 | _ => d = set_conns (dset Z.eqb n l (d_conns d1)) d1 /\ os = [] /\ a = ARet (Ok (GL l)) end).
              { destruct c; cbn [aims rest_of] in *; try discriminate; cbn [unwind frame_step ret] in EU.
                - injection EU as <- <- <-. auto.
                - unfold send_over in EU. destruct (sub _ _ _ _) as [[d2 os2] [r2|w2 fs2]]; cbn in EU; injection EU as <- <- <-; rewrite ?app_nil_r; reflexivity. }
              assert (K2 : d_conns d = dset Z.eqb n l (d_conns (g_d s)) /\ length (d_links d) = length (d_links (g_d s)) /\
                 (forall o, In o os -> match o with GAt _ _ => True | GSub t' l' _ c' => t' = t /\ l' = Some l /\ exists cmd sep dep tmo, c = GSendTo n cmd sep dep tmo /\ c' = CSend cmd sep dep tmo | _ => False end) /\
                 ((exists r, pc_of a = GDone r) \/ exists l u, pc_of a = GWait (AwCall (Some l) u) [])).
              { destruct c; cbn [aims] in A; try discriminate; injection A as ->.
                - destruct K as (-> & -> & ->). cbn. rewrite ST4, ST5. repeat split; [intros o []|]. left. eexists. reflexivity.
                - destruct (sub_link _ _ _ _ _ _ _ K) as ([S1 S2] & SO & SP). rewrite S1, S2. cbn. rewrite ST4, ST5. repeat split; [|exact SP]. intros o J. specialize (SO o J). destruct o; try exact SO. destruct SO as (-> & -> & ->). eauto 9. }
              destruct K2 as (K1 & K2 & SO & SP).
              assert (ON : forall tr' n' k', ~ link_pc n' k' tr' (pc_of a)) by (intros tr' n' k' LP; destruct SP as [(r & E)|(l' & u & E)]; rewrite E in LP; inversion LP).
              split; cbn [g_d g_tasks].
              ** lia.
              ** intros t0 l0 n0 ip J0. at_step NT J0. elim (SO _ J0).
              ** intros t0 l0 n0 ip t1 l1 n1 ip1 J0. at_step NT J0. elim (SO _ J0).
              ** intros n0 l0 J0. rewrite K1 in J0. apply in_set in J0 as [J0|J0]; [|auto]. injection J0 as -> ->. auto.
              ** intros n0 J0. rewrite K1. apply dmem_set. auto.
              ** intros t0 l0 u0 c0 J0. at_step NT J0. destruct (SO _ J0) as (-> & E & cmd & sep & dep & tmo & -> & ->). injection E as ->. do 6 eexists. split; [exact NU|]. auto.
              ** intros t0 l0 v0 J0. at_step NT J0; [|elim (SO _ J0)]. injection J0 as -> -> _. exists n. split; [exact M|]. rewrite K1. apply dmem_set. auto.
              ** intros t0 c0 p0 N0. apply shape_app. revert t0 c0 p0 N0. apply (shapes_old s d t c _ (pc_of a) tr L EN). unfold shape. rewrite A. right. exact SP.
              ** eapply (others_old s d t c); [exact L|exact EN|]. intros n0 k0 LP. elim (ON _ _ _ LP).
              ** intros t0 c0 J0. at_step NT J0. elim (SO _ J0).
           ++ assert (K : d = d1 /\ os = [] /\ a = ARet (Err e')).
              { cbn [unwind] in EU. assert (E1 : frame_step ord t (FOpen n l) (Err e') d1 = ret (Err e') d1) by (destruct e'; reflexivity). rewrite E1 in EU. cbn [ret] in EU. rewrite err_rest in EU. injection EU as <- <- <-. auto. }
              destruct K as (-> & -> & ->). destruct (DN ltac:(eexists; reflexivity)) as [D1 D2]. apply TM; [apply same_conns_refl|constructor|discriminate|exact D1|exact D2].
      * injection E as -> ->. cbn in EU. injection EU as <- <- <-. destruct (DN ltac:(eexists; reflexivity)) as [D1 D2]. apply TM; [apply same_conns_refl|constructor|discriminate|exact D1|exact D2].
    + destruct SH as [P NW]. pose proof (tame_unwind t fs P r d1) as (T1 & T2 & T3). rewrite EU in T1, T2, T3. cbn in T1, T2, T3.
      apply TM; [exact T1|exact T2|intros l v E; elim (NW _ E)|apply tame_shape; assumption|]. intros tr' n k LP. destruct a as [r0|w0 fs0]; cbn in LP; inversion LP; subst; destruct T3 as [T3 _]; discriminate.
Qed.
Lemma lift_told l d os l' n ep cmd fl : In (GTold (Some l') n ep cmd fl) (flat_map (lift l d) os) -> In (n, l') (d_conns d).
Proof.
  intros J. apply in_flat_map in J as (o & _ & J). unfold lift in J. destruct J as [J|J]; [discriminate|]. destruct l as [i|]; [|destruct J]. destruct o; try contradiction. destruct J as [H|[]].
  unfold heard, node_of in H. destruct (find _ (d_conns d)) as [[n' l0]|] eqn:F; [|discriminate]. apply find_some in F as [F E]. cbn in E. apply Nat.eqb_eq in E. subst l0. injection H as <- <- _ _ _. exact F.
Qed.
Lemma not_told os t l n ep cmd fl : Forall (ours t) os -> ~ In (GTold l n ep cmd fl) os. Proof. rewrite Forall_forall. intros F J. exact (F _ J). Qed.
Lemma step_told s e s' os l n ep cmd fl : gstep ord s e = Some (s', os) -> In (GTold (Some l) n ep cmd fl) os -> In (n, l) (d_conns (g_d s)).
Proof.
  assert (SP : forall c s0 s1 o1, spawn ord c s0 = (s1, o1) -> ~ In (GTold (Some l) n ep cmd fl) o1).
  { intros c s0 s1 o1 E J. destruct (start ord (length (g_tasks s0)) c (g_d s0)) as [[d os1] a] eqn:S. rewrite (spawn_eq _ _ _ _ _ _ S) in E. injection E as <- <-. destruct J as [J|J]; [discriminate|]. apply in_app_or in J as [J|J]; [|destruct a; [destruct J as [J|[]]; discriminate|exact J]].
    exact (not_told _ _ _ _ _ _ _ (start_ours _ _ _ _ _ _ _ S) J). }
  assert (WK : forall t w r fs s0 s1 o1, wake ord t w r fs s0 = (s1, o1) -> ~ In (GTold (Some l) n ep cmd fl) o1).
  { intros t w r fs s0 s1 o1 E J. unfold wake in E. destruct (unwind ord t r fs (g_d s0)) as [[d os1] a] eqn:U. injection E as <- <-. destruct J as [J|J]; [discriminate|]. apply in_app_or in J as [J|J]; [|destruct a; [destruct J as [J|[]]; discriminate|exact J]].
    exact (not_told _ _ _ _ _ _ _ (unwind_ours _ _ _ _ _ _ _ _ U) J). }
  destruct e as [dt|c|l0 e|t r|bs addr]; cbn [gstep].
  - destruct (0 <=? dt); [|discriminate]. intros E. injection E as <- <-. intros [].
  - intros E J. exfalso. assert (E' : Some (spawn ord c s) = Some (s', os)) by (destruct c; try exact E; discriminate). assert (E2 : spawn ord c s = (s', os)) by congruence. exact (SP _ _ _ _ E2 J).
  - intros E J.
    assert (K : exists xs o2, os = flat_map (lift l0 (g_d s)) xs ++ o2 /\ ~ In (GTold (Some l) n ep cmd fl) o2).
    { destruct e; try discriminate; destruct (conn_at l0 (g_d s)) as [k|]; try discriminate; match type of E with context [step k ?x] => destruct (step k x) as [[k' xs]|]; [|discriminate] end;
        (destruct (returned xs) as [[uu rr]|]; [|injection E as <- <-; exists xs, []; rewrite app_nil_r; split; [reflexivity|intros []]]);
        (destruct (waiter_of l0 uu 0 (g_tasks s)) as [[tt0 fs]|]; [|injection E as <- <-; exists xs, []; rewrite app_nil_r; split; [reflexivity|intros []]]);
        match type of E with context [wake ord ?a0 ?b0 ?c0 ?d0 ?s0] => destruct (wake ord a0 b0 c0 d0 s0) as [s2 o2] eqn:W end; injection E as <- <-; exists xs, o2; (split; [reflexivity|]); exact (WK _ _ _ _ _ _ _ W). }
    destruct K as (xs & o2 & -> & N). apply in_app_or in J as [J|J]; [exact (lift_told _ _ _ _ _ _ _ _ J)|elim (N J)].
  - intros E J. exfalso. destruct (nth_error (g_tasks s) t) as [[c [w fs|]]|]; try discriminate. destruct w as [|l0|]; try discriminate.
    + destruct (conn_at l0 (g_d s)) as [k|]; [|discriminate]. match type of E with Some ?x = Some ?y => assert (E2 : x = y) by congruence end. exact (WK _ _ _ _ _ _ _ E2 J).
    + match type of E with Some ?x = Some ?y => assert (E2 : x = y) by congruence end. exact (WK _ _ _ _ _ _ _ E2 J).
  - intros E J. exfalso. destruct (forallb is_byte bs); [|discriminate]. assert (NU : ~ In (GTold (Some l) n ep cmd fl) (fst (unsolicited bs addr (g_d s)))).
    { unfold unsolicited. intros K. repeat match type of K with context [match ?x with _ => _ end] => destruct x end; cbn in K; repeat (destruct K as [K|K]; [discriminate K|]); exact K. }
    destruct (unsolicited bs addr (g_d s)) as [os0 [nodes|]].
    + destruct (spawn ord (GReport nodes) s) as [s2 o2] eqn:S. injection E as <- <-. destruct J as [J|J]; [discriminate|]. apply in_app_or in J as [J|J]; [exact (NU J)|exact (SP _ _ _ _ S J)].
    + injection E as <- <-. destruct J as [J|J]; [discriminate|exact (NU J)].
Qed.
Lemma in_stamped k o tr n os : In (k, o) (tr ++ gstamp n os) -> In (k, o) tr \/ k = n /\ In o os.
Proof. intros J. apply in_app_or in J as [J|J]; [auto|]. apply in_map_iff in J as (x & E & J). injection E as <- <-. auto. Qed.
Lemma stamped_in n o tr os : In o os -> In (n, o) (tr ++ gstamp n os). Proof. intros J. apply in_or_app. right. apply in_map. exact J. Qed.
Lemma gstamp_cut n os a x b : gstamp n os = a ++ x :: b -> exists o1 o2, os = o1 ++ snd x :: o2 /\ a = gstamp n o1 /\ b = gstamp n o2.
Proof.
  revert a. induction os as [|o os IH]; intros [|y a] E; try discriminate; cbn in E; injection E as <- E.
  - exists [], os. auto.
  - destruct (IH _ E) as (o1 & o2 & -> & -> & ->). exists (o :: o1), o2. auto.
Qed.
Lemma called_first s e s' os o1 t c o2 : gcase ord s e s' os -> os = o1 ++ GCalled t c :: o2 -> Forall no_task o1.
Proof.
  assert (NP : forall pre, Forall no_task pre -> ~ In (GCalled t c) pre) by (intros pre F J; rewrite Forall_forall in F; specialize (F _ J); discriminate F).
  assert (NO : forall t0 os0 a, Forall (ours t0) os0 -> ~ In (GCalled t c) (os0 ++ said t0 a)) by (intros t0 os0 a F J; apply in_app_or in J as [J|J]; [rewrite Forall_forall in F; exact (F _ J)|destruct a; [destruct J as [J|[]]; discriminate|exact J]]).
  intros C E. destruct C as [e s' os ET ? NT|e c0 d os a pre S NT ?|e t0 c0 w fs r d1 d os a pre EN ? ? NT EU].
  - elim (NP _ NT). rewrite E. apply in_or_app. right. left. reflexivity.
  - destruct (app_cut _ _ _ _ _ E) as [(x & -> & _)|(x & -> & E1)]; [elim (NP _ NT); apply in_or_app; right; left; reflexivity|]. destruct x as [|y x]; [rewrite app_nil_r; exact NT|]. injection E1 as _ E1.
    elim (NO _ _ a (start_ours _ _ _ _ _ _ _ S)). rewrite E1. apply in_or_app. right. left. reflexivity.
  - destruct (app_cut _ _ _ _ _ E) as [(x & -> & _)|(x & -> & E1)]; [elim (NP _ NT); apply in_or_app; right; left; reflexivity|]. destruct x as [|y x]; [discriminate E1|]. injection E1 as _ E1.
    elim (NO _ _ a (unwind_ours _ _ _ _ _ _ _ _ EU)). rewrite E1. apply in_or_app. right. left. reflexivity.
Qed.
Lemma linv_step es s tr e s' os : gexec gw0 es s tr -> linv s tr -> gstep ord s e = Some (s', os) -> linv s' (tr ++ gstamp (g_now s) os).
Proof.
  intros X L ST. pose proof (step_facts _ _ _ _ _ L (step_case _ _ _ _ _ ST)) as F. set (tr' := tr ++ gstamp (g_now s) os) in *.
  assert (MD : forall n l, made n l tr' -> made n l tr \/ exists t ip, In (GNew t l n ip) os).
  { intros n l (k & t & ip & J). apply in_stamped in J as [J|[_ J]]; [left; exists k, t, ip; exact J|right; eauto]. }
  assert (MO : forall n l, made n l tr -> (l < length (d_links (g_d s)))%nat) by (intros n l (k & t & ip & J); exact (proj1 (L1 _ _ L _ _ _ _ _ J))).
  assert (KEEP : forall t c p, nth_error (g_tasks s) t = Some (mkGT c p) -> exists p', nth_error (g_tasks s') t = Some (mkGT c p')).
  { intros t c p N. destruct (step_case _ _ _ _ _ ST) as [e s' os ET ? ?|e c0 d os a pre ? ? ?|e t0 c0 w fs r d1 d os a pre EN ? ? ? ?]; cbn [g_tasks].
    - rewrite ET. eauto.
    - rewrite nth_snoc. apply nth_lt in N as N'. destruct (Nat.eqb_spec t (length (g_tasks s))); [lia|]. eauto.
    - destruct (Nat.eq_dec t t0) as [->|NE]; [rewrite (nth_upd_same _ _ _ _ EN)|rewrite nth_upd_other by congruence; eauto]. rewrite EN in N. injection N as -> _. eauto. }
  assert (CALLED : forall t c p, nth_error (g_tasks s') t = Some (mkGT c p) -> exists k, In (k, GCalled t c) tr') by (intros t c p N; exact (task_called ord (es ++ [e]) s' tr' t c p (GX_snoc _ _ _ _ _ _ _ _ X ST) N)).
  split.
  - intros k t l n ip J. apply in_stamped in J as [J|[_ J]].
    + destruct (L1 _ _ L _ _ _ _ _ J) as (A & c & p & N & AM). split; [pose proof (F0 _ _ _ _ F); lia|]. destruct (KEEP _ _ _ N) as (p' & N'). eauto.
    + destruct (F1 _ _ _ _ F _ _ _ _ J) as (_ & A & c & p & N & AM & _). split; [exact A|]. destruct (KEEP _ _ _ N) as (p' & N'). eauto.
  - intros l n n' M M'. destruct (MD _ _ M) as [M1|(t & ip & J)], (MD _ _ M') as [M1'|(t' & ip' & J')].
    + exact (L2 _ _ L _ _ _ M1 M1').
    + apply MO in M1. destruct (F1 _ _ _ _ F _ _ _ _ J') as (E & _). lia.
    + apply MO in M1'. destruct (F1 _ _ _ _ F _ _ _ _ J) as (E & _). lia.
    + exact (F1u _ _ _ _ F _ _ _ _ _ _ _ _ J J').
  - intros n l J. apply made_app. destruct (F2 _ _ _ _ F _ _ J) as [J1|J1]; [exact (L3 _ _ L _ _ J1)|exact J1].
  - intros k t l u c J. apply in_stamped in J as [J|[_ J]].
    + destruct (L4 _ _ L _ _ _ _ _ J) as (k' & n & cmd & sep & dep & tmo & C & E & M). exists k', n, cmd, sep, dep, tmo. split; [apply in_or_app; auto|]. split; [exact E|apply made_app; exact M].
    + destruct (F3 _ _ _ _ F _ _ _ _ J) as (n & cmd & sep & dep & tmo & p & N & E & M). destruct (CALLED _ _ _ N) as (k' & C). exists k', n, cmd, sep, dep, tmo. split; [exact C|]. split; [exact E|apply made_app; exact M].
  - intros k l n ep cmd fl J. apply made_app. apply in_stamped in J as [J|[_ J]]; [exact (L5 _ _ L _ _ _ _ _ _ J)|]. apply (L3 _ _ L). exact (step_told _ _ _ _ _ _ _ _ _ ST J).
  - intros n (k & t & l & v & J & M). apply in_stamped in J as [J|[_ J]].
    + destruct (MD _ _ M) as [M1|(t' & ip & J')].
      * apply (F2k _ _ _ _ F). apply (L6 _ _ L). exists k, t, l, v. auto.
      * exfalso. destruct (F1 _ _ _ _ F _ _ _ _ J') as (E & _). destruct (L9 _ _ L _ _ _ _ J) as (n' & B). apply MO in B. lia.
    + destruct (F4 _ _ _ _ F _ _ _ J) as (n' & M1 & D). destruct (MD _ _ M) as [M2|(t' & ip & J')]; [rewrite (L2 _ _ L _ _ _ M2 M1); exact D|]. apply MO in M1. destruct (F1 _ _ _ _ F _ _ _ _ J') as (E & _). lia.
  - exact (F6 _ _ _ _ F).
  - intros k t l v J. apply in_stamped in J as [J|[_ J]]; [destruct (L9 _ _ L _ _ _ _ J) as (n & M)|destruct (F4 _ _ _ _ F _ _ _ J) as (n & M & _)]; exists n; apply made_app; exact M.
  - intros a k t c b n E A ES. unfold tr' in E. destruct (app_cut _ _ _ _ _ E) as [(b1 & E1 & ->)|(b1 & -> & E1)].
    + destruct (L8 _ _ L _ _ _ _ _ _ E1 A ES) as [N1 N2].
      assert (CT : exists p, nth_error (g_tasks s) t = Some (mkGT c p)) by (apply (called_call ord es s tr t c k X); rewrite E1; apply in_or_app; right; left; reflexivity). destruct CT as (p & N). split.
      * intros k' l n' ip J. apply in_stamped in J as [J|[_ J]]; [exact (N1 _ _ _ _ J)|]. destruct (F1 _ _ _ _ F _ _ _ _ J) as (_ & _ & c' & p' & N' & A' & LP). rewrite N in N'. injection N' as <- <-. rewrite A in A'. injection A' as <-. exact (N2 _ N LP).
      * intros p' N' LP. destruct (F7 _ _ _ _ F _ _ _ N') as [(p0 & N0 & H)|[-> _]]; [exact (N2 _ N0 (H _ _ LP))|]. apply nth_lt in N. lia.
    + assert (J : In (GCalled t c) os) by (assert (J0 : In (k, GCalled t c) (gstamp (g_now s) os)) by (rewrite E1; apply in_or_app; right; left; reflexivity); apply in_map_iff in J0 as (x & E0 & J0); injection E0 as _ ->; exact J0).
      destruct (F8 _ _ _ _ F _ _ J) as (ET & p & N).
      assert (ES0 : established n tr).
      { destruct ES as (k1 & t1 & l1 & v1 & J1 & M1). assert (NB : forall o, In o b1 -> task_of (snd o) = None).
        { destruct (gstamp_cut _ _ _ _ _ E1) as (o1 & o2 & EO & -> & _). pose proof (called_first _ _ _ _ _ _ _ _ (step_case _ _ _ _ _ ST) EO) as NT. rewrite Forall_forall in NT.
          intros o JO. apply in_map_iff in JO as (x & <- & JO). exact (NT _ JO). }
        exists k1, t1, l1, v1. split.
        - apply in_app_or in J1 as [J1|J1]; [exact J1|]. specialize (NB _ J1). discriminate NB.
        - destruct M1 as (k2 & t2 & ip & J2). exists k2, t2, ip. apply in_app_or in J2 as [J2|J2]; [exact J2|]. specialize (NB _ J2). discriminate NB. }
      split.
      * intros k' l n' ip J'. apply in_stamped in J' as [J'|[_ J']].
        -- destruct (L1 _ _ L _ _ _ _ _ J') as (_ & c' & p' & N' & _). apply nth_lt in N'. lia.
        -- destruct (F1 _ _ _ _ F _ _ _ _ J') as (_ & _ & c' & p' & N' & _). apply nth_lt in N'. lia.
      * intros p' N' LP. destruct (F7 _ _ _ _ F _ _ _ N') as [(p0 & N0 & _)|[_ H]]; [apply nth_lt in N0; lia|]. exact (H _ _ A (L6 _ _ L _ ES0) LP).
Qed.
Lemma exec_linv es s tr : gexec gw0 es s tr -> linv s tr.
Proof.
  induction 1 as [|es s tr e s' os X IH ST]; [|exact (linv_step _ _ _ _ _ _ X IH ST)]. split; try (intros; contradiction).
  - intros l n n' (k & t & ip & []).
  - intros n (k & t & l & v & [] & _).
  - intros [|t] c p N; discriminate N.
  - intros [|a0 a] k t c b n E; discriminate E.
Qed.
Lemma node_links es s tr : gexec gw0 es s tr ->
  (forall k t l u c, In (k, GSub t (Some l) u c) tr -> exists k' n cmd sep dep tmo, In (k', GCalled t (GSendTo n cmd sep dep tmo)) tr /\ c = CSend cmd sep dep tmo /\ made n l tr) /\
  (forall l n n', made n l tr -> made n' l tr -> n = n') /\
  (forall k l n ep cmd fl, In (k, GTold (Some l) n ep cmd fl) tr -> made n l tr) /\
  (forall a k t c b n, tr = a ++ (k, GCalled t c) :: b -> aims c = Some n -> established n a -> forall k' l n' ip, ~ In (k', GNew t l n' ip) tr) /\
  (forall k t l n ip, In (k, GNew t l n ip) tr -> exists k' c, In (k', GCalled t c) tr /\ aims c = Some n).
Proof.
  intros X. pose proof (exec_linv _ _ _ X) as L. split; [exact (L4 _ _ L)|]. split; [exact (L2 _ _ L)|]. split; [exact (L5 _ _ L)|]. split.
  - intros a k t c b n E A ES. exact (proj1 (L8 _ _ L _ _ _ _ _ _ E A ES)).
  - intros k t l n ip J. destruct (L1 _ _ L _ _ _ _ _ J) as (_ & c & p & N & A). destruct (task_called _ _ _ _ _ _ _ X N) as (k' & C). eauto.
Qed.
End Node.
