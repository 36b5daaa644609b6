(** Proofs about where the entries of the gateway's node table come from (C126). *)
From Coq Require Import String ZArith List Bool Lia.
From Verif Require Import Py Schema Registry Codec Waiter Conn SpecConn ConnLemmas ConnInv ConnCases ConnProps Gateway SpecGateway SpecConnect SpecTableFrom GatewayProofs GatewayLinks GatewayStory GatewayIp GatewayTable GatewayConnect.
From Verif Require ConnRest.
Import ListNotations.
Open Scope list_scope.
Open Scope string_scope.
Open Scope list_scope.
Open Scope Z_scope.

(** ** Stacks of frames *)
Definition free (g : frame) : Prop := match g with FSetup | FList | FReport _ _ | FSetupIp _ _ => False | _ => True end.
Definition allowed (f g : frame) : Prop := match g with FSetup => f = FList | FList => False | FReport n _ | FSetupIp n _ => f = FIp n | _ => True end.
Definition hd_free (fs : list frame) : Prop := match fs with [] => True | g :: _ => free g end.
Section Stack.
Variable ord : list Z -> list Z.
Hypothesis it : iterates ord.
Variable R : Z -> Prop.
Variable A : Z -> val -> Prop.
Definition local (f : frame) : Prop := match f with FReport n rest | FSetupIp n rest => R n /\ Forall R rest | _ => True end.
Fixpoint safe (fs : list frame) : Prop := match fs with [] => True | f :: fs' => local f /\ match fs' with [] => True | g :: _ => allowed f g end /\ safe fs' end.
(** what may be given to the first frame *)
Definition lists (r : res gval) : Prop := match r with Ok (GV (VNodeList l)) => Forall R l | _ => True end.
Definition gives (f : frame) (r : res gval) : Prop :=
  match f, r with
  | FSetup, _ => lists r
  | FList, Ok (GV rep) => match getattr rep "nodes" with VNodeList l => Forall R l | _ => True end
  | (FReport n _ | FSetupIp n _), Ok (GV v) => A n v
  | _, _ => True
  end.
Definition gives_all (fs : list frame) (r : res gval) : Prop := match fs with [] => True | f :: _ => gives f r end.
Definition entries (T : list (Z * val)) : Prop := forall n v, In (n, v) T -> R n /\ (v = VNone \/ A n v).
(** what waits: the top frame is not one that gets its value from another frame *)
Definition top (t : nat) (w : await) (fs : list frame) (os : list gobs) : Prop :=
  match fs with
  | FSetup :: _ | FReport _ _ :: _ | FSetupIp _ _ :: _ => False
  | FList :: _ => exists u c, w = AwCall None u /\ list_get c /\ In (GSub t None u c) os
  | _ => True
  end.
Definition fine (t : nat) (g : go) : Prop := entries (d_nodes (gd g)) /\ match snd g with AWait w fs => safe fs /\ top t w fs (gos g) | ARet _ => True end.

Lemma safe_app gs fs : safe gs -> safe fs -> hd_free fs -> safe (gs ++ fs).
Proof.
  induction gs as [|f gs IH]; intros S1 S2 H; [exact S2|]. destruct S1 as (L & AL & S1). cbn [app safe]. split; [exact L|]. split; [|exact (IH S1 S2 H)].
  destruct gs as [|g gs]; [|exact AL]. destruct fs as [|g fs]; [exact I|]. cbn in *. destruct g; try exact I; contradiction.
Qed.
Lemma top_app t w gs fs os : top t w gs os -> hd_free fs -> top t w (gs ++ fs) os.
Proof. destruct gs as [|f gs]; [|intros H _; exact H]. intros _ H. destruct fs as [|f fs]; [exact I|]. cbn in *. destruct f; try exact I; contradiction. Qed.
Lemma top_more t w fs os os' : top t w fs os -> (forall o, In o os -> In o os') -> top t w fs os'.
Proof. destruct fs as [|f fs]; [auto|]. destruct f; try (intros; assumption). intros (u & c & -> & L & J) H. exists u, c. auto. Qed.
Lemma fine_ret t r d : entries (d_nodes d) -> fine t (ret r d). Proof. split; [assumption|exact I]. Qed.
Lemma keeps_fine t d g : keeps d g -> entries (d_nodes d) -> fine t g.
Proof.
  intros (K & _ & S) E. split; [rewrite K; exact E|]. destruct (snd g) as [r|w fs]; [exact I|]. unfold still in S. assert (H : Forall (fun f => table_frame f = false) fs).
  { apply Forall_forall. intros f J. destruct (table_frame f) eqn:TF; [|reflexivity]. assert (X : existsb table_frame fs = true) by (apply existsb_exists; eauto). congruence. }
  clear K E S. split.
  - induction H as [|f fs F H IH]; [exact I|]. cbn [safe]. split; [destruct f; try exact I; discriminate F|]. split; [|exact IH]. destruct H as [|f' fs' F' H]; [exact I|]. destruct f'; try exact I; discriminate F'.
  - destruct H as [|f fs F H]; [exact I|]. destruct f; try exact I; discriminate F.
Qed.
Lemma fine_sub t l c d : entries (d_nodes d) -> fine t (sub t l c d). Proof. apply keeps_fine, keeps_sub. Qed.
(** ipOfNode under a frame that puts the address into the table *)
Lemma fine_lookup t n f d k : entries (d_nodes d) -> local f -> match f with FReport m _ | FSetupIp m _ => m = n | _ => False end ->
  (forall r d', d_nodes d' = d_nodes d -> fine t (k r d')) -> fine t (under (start_ip t n d) [f] k).
Proof.
  intros E L F K. unfold start_ip. destruct (solicit n) as [bs|e].
  - pose proof (keeps_sub t None (CWait adv_hid 3000) d) as (KN & _ & KS). destruct (sub t None (CWait adv_hid 3000) d) as [[d' os] [r|w fs]] eqn:S; cbn [under gd gos fst snd] in *.
    + specialize (K r d' KN). destruct (k r d') as [[d2 os2] a]. destruct K as [K1 K2]. split; [exact K1|]. cbn [fst snd gd gos] in *. destruct a as [r2|w2 fs2]; [exact I|]. destruct K2 as [K2 K3]. split; [exact K2|]. apply (top_more _ _ _ _ _ K3). intros o J. apply in_or_app. auto.
    + destruct (sub_none _ _ _ _ _ _ S) as (_ & u & _ & [W|(x & W & _)]); [|discriminate W]. injection W as -> ->. cbn [app]. split; [cbn; rewrite KN; exact E|]. cbn. split; [|exact I]. repeat split; auto. destruct f; try contradiction; cbn; congruence.
  - cbn [under ret]. specialize (K (Err e) d eq_refl). destruct (k (Err e) d) as [[d2 os2] a]. exact K.
Qed.
Lemma fine_report t ns : forall d, entries (d_nodes d) -> Forall R ns -> fine t (report_loop t ns d).
Proof.
  induction ns as [|n ns IH]; intros d E F; cbn [report_loop]; [split; [exact E|exact I]|]. inversion F as [|? ? F1 F2]; subst. destruct (dmem Z.eqb n (d_nodes d)); [exact (IH d E F2)|].
  apply fine_lookup; [exact E|split; assumption|reflexivity|]. intros r d' N. destruct r; apply fine_ret; rewrite N; exact E.
Qed.
Lemma fine_setup t ns : forall d, entries (d_nodes d) -> Forall R ns -> fine t (setup_loop t ns d).
Proof.
  induction ns as [|n ns IH]; intros d E F; cbn [setup_loop]; [apply fine_ret; exact E|]. inversion F as [|? ? F1 F2]; subst. destruct (dget Z.eqb n (d_nodes d)) as [ip|]; [|apply fine_ret; exact E]. destruct (truthy ip); [exact (IH d E F2)|].
  apply fine_lookup; [exact E|split; assumption|reflexivity|]. intros r d' N. destruct r; apply fine_ret; rewrite N; exact E.
Qed.
Lemma all_ord l : Forall R l -> Forall R (ord l).
Proof. rewrite !Forall_forall. intros F x J. apply F, it, J. Qed.
Lemma fine_nodes t r d : entries (d_nodes d) -> lists r -> fine t (setup_nodes ord t r d).
Proof.
  intros E L. destruct r as [[v|l]|e]; cbn [setup_nodes]; try (apply fine_ret; exact E). destruct v; try (apply fine_ret; exact E). apply fine_setup; [exact E|apply all_ord; exact L].
Qed.
Lemma in_dset {V} n (v : V) T x : In x (dset Z.eqb n v T) -> x = (n, v) \/ In x T.
Proof.
  induction T as [|[m y] T IH]; cbn; [intros [J|[]]; auto|]. destruct (n =? m) eqn:E; intros [J|J]; auto.
  - apply Z.eqb_eq in E. subst. auto.
  - destruct (IH J); auto.
Qed.
Lemma entries_set n v T : entries T -> R n -> A n v -> entries (dset Z.eqb n v T).
Proof. intros E H1 H2 m x J. apply in_dset in J as [J|J]; [injection J as -> ->; auto|exact (E _ _ J)]. Qed.
(** getNodeList *)
Lemma fine_list t d : entries (d_nodes d) -> fine t (start_list t d) /\ match snd (start_list t d) with ARet r => lists r | AWait _ fs => fs = [FList] end.
Proof.
  intros E. unfold start_list. destruct (d_nodes d) as [|e T] eqn:N; [|split; [apply fine_ret; rewrite N; exact E|]].
  - cbv zeta. change (new_msg m_NetworkManagementProxy_NodeListGet [("seqNo", VInt (d_nm d + 1))]) with (Ok (list_m (d_nm d + 1))). cbv iota beta.
    change (CSendRecv (list_m (d_nm d + 1)) 0 0 (s_hid m_NetworkManagementProxy_NodeListReport) 3000) with (list_c (d_nm d + 1)). destruct (sub t None (list_c (d_nm d + 1)) (set_nm (d_nm d + 1) d)) as [[d' os] a] eqn:S.
    destruct (sub_none _ _ _ _ _ _ S) as (K & u & M & [->|(x & -> & _)]); cbn [app fst snd].
    + split; [|reflexivity]. split; [cbn; rewrite K; cbn; rewrite N; exact E|]. cbn. repeat split; auto. exists u, (list_c (d_nm d + 1)). split; [reflexivity|]. split; [apply list_ok|].
      assert (J : In (GSub t None u (list_c (d_nm d + 1))) (filter (mine t) os)) by (rewrite M; left; reflexivity). apply filter_In in J as [J _]. exact J.
    + split; [|exact I]. split; [cbn; rewrite K; cbn; rewrite N; exact E|exact I].
  - cbn [ret snd lists]. apply Forall_forall. intros x J. apply in_map_iff in J as ([m y] & <- & J). exact (proj1 (E _ _ J)).
Qed.
Lemma entries_fresh l : Forall R l -> entries (map (fun x => (x, VNone)) (ord l)).
Proof. intros F n v J. apply in_map_iff in J as (x & X & J). injection X as -> <-. split; [|auto]. rewrite Forall_forall in F. apply F, it, J. Qed.
Lemma entries_filter p T : entries T -> entries (filter p T). Proof. intros E n v J. apply filter_In in J as [J _]. exact (E _ _ J). Qed.
(** one frame *)
Lemma frame_fine t f r d d' os a : frame_step ord t f r d = (d', os, a) -> (forall n v, In (GFound t n v) os -> A n v) -> entries (d_nodes d) -> local f -> gives f r ->
  fine t (d', os, a) /\ match a with ARet r' => (f = FList -> lists r') /\ (forall n, f = FIp n -> match r' with Ok (GV v) => A n v | _ => True end) | AWait _ _ => f <> FList /\ forall n, f <> FIp n end.
Proof.
  intros S FO E L G.
  assert (Q : (forall n, f <> FIp n) -> f <> FList -> fine t (d', os, a) -> fine t (d', os, a) /\ match a with ARet r' => (f = FList -> lists r') /\ (forall n, f = FIp n -> match r' with Ok (GV v) => A n v | _ => True end) | AWait _ _ => f <> FList /\ forall n, f <> FIp n end).
  { intros N1 N2 H. split; [exact H|]. destruct a; split; auto; intros; congruence || (exfalso; eapply N1; eassumption). }
  destruct (table_frame f) eqn:TF.
  - destruct f; try discriminate TF.
    + apply Q; try discriminate. rewrite <- S. destruct r as [[v|x]|e]; cbn [frame_step]; try (apply fine_ret; exact E); try (destruct e; apply fine_ret; exact E). destruct L as [L1 L2]. cbn [gives] in G. apply fine_report; [apply entries_set; auto|exact L2].
    + split; [rewrite <- S; destruct r as [[v|x]|e]; cbn [frame_step]; try (apply fine_ret; exact E); try (destruct e; apply fine_ret; exact E); cbv zeta; cbn [gives] in G; destruct (getattr v "nodes"); try (apply fine_ret; exact E); apply fine_ret; cbn; apply entries_fresh; exact G|].
      assert (H : exists r', a = ARet r' /\ lists r').
      { destruct r as [[v|x]|e]; cbn [frame_step] in S; [|injection S as <- <- <-; eexists; split; [reflexivity|exact I]|].
        - cbv zeta in S. cbn [gives] in G. destruct (getattr v "nodes"); injection S as <- <- <-; eexists; (split; [reflexivity|]); try exact I; exact G.
        - destruct e; injection S as <- <- <-; eexists; (split; [reflexivity|]); try exact I; constructor. }
      destruct H as (r' & -> & H). split; [auto|]. intros n; discriminate.
    + apply Q; try discriminate. rewrite <- S. destruct r as [v|e]; cbn [frame_step]; [|first [apply fine_ret; exact E|destruct e; apply fine_ret; exact E]].
      assert (KM := keeps_mode t 1 3000 d). destruct (start_mode t 1 3000 d) as [[d1 o1] [r1|w1 fs1]] eqn:SM; cbn [under].
      * destruct KM as (K1 & _ & _). cbn in K1. destruct r1 as [v1|e1]; (split; [cbn; rewrite K1; exact E|]); cbn; auto. 
      * pose proof (keeps_fine t d _ KM E) as (F1 & F2 & F3). cbn [fst snd gd gos] in *. split; [exact F1|]. cbn. split; [apply safe_app; [exact F2|repeat split|exact I]|apply top_app; [exact F3|exact I]].
    + apply Q; try discriminate. rewrite <- S. destruct r as [v|e]; cbn [frame_step]; [|first [apply fine_ret; exact E|destruct e; apply fine_ret; exact E]]. split; [exact E|]. cbn. auto.
    + apply Q; try discriminate. rewrite <- S. destruct r as [v|e]; cbn [frame_step]; [|first [apply fine_ret; exact E|destruct e; apply fine_ret; exact E]].
      assert (KM := keeps_sub t None (CSend dest_msg 0 0 3000) d). destruct (sub t None (CSend dest_msg 0 0 3000) d) as [[d1 o1] [r1|w1 fs1]] eqn:SM; cbn [under].
      * destruct KM as (K1 & _ & _). cbn in K1. split; [cbn; rewrite K1; exact E|exact I].
      * pose proof (keeps_fine t d _ KM E) as (F1 & F2 & F3). cbn [fst snd gd gos] in *. split; [exact F1|]. cbn. split; [apply safe_app; [exact F2|repeat split|exact I]|apply top_app; [exact F3|exact I]].
    + apply Q; try discriminate. rewrite <- S. destruct r as [v|e]; cbn [frame_step]; [|first [apply fine_ret; exact E|destruct e; apply fine_ret; exact E]].
      destruct (fine_list t d E) as [F1 F2]. destruct (start_list t d) as [[d1 o1] [r1|w1 fs1]]; cbn [under snd] in *.
      * destruct F1 as [F1 _]. cbn [gd fst] in F1. pose proof (fine_nodes t r1 d1 F1 F2) as H. destruct (setup_nodes ord t r1 d1) as [[d2 o2] a2]. destruct H as [H1 H2]. split; [exact H1|]. cbn [snd gos fst] in *. destruct a2 as [r2|w2 fs2]; [exact I|]. destruct H2 as [H2 H3]. split; [exact H2|]. apply (top_more _ _ _ _ _ H3). intros o J. apply in_or_app. auto.
      * subst fs1. destruct F1 as [F1 (_ & F3)]. split; [exact F1|]. cbn in *. repeat split; auto.
    + apply Q; try discriminate. rewrite <- S. cbn [frame_step]. destruct r; apply fine_nodes; auto.
    + apply Q; try discriminate. rewrite <- S. destruct r as [[v|x]|e]; cbn [frame_step]; try (apply fine_ret; exact E); try (destruct e; apply fine_ret; exact E). destruct L as [L1 L2]. cbn [gives] in G. apply fine_setup; [apply entries_set; auto|exact L2].
  - pose proof (keeps_fine t d _ (keeps_frame ord t f r d TF) E) as H. rewrite S in H. destruct f; try discriminate TF; try (apply Q; [discriminate|discriminate|exact H]).
    split; [exact H|]. destruct r as [[v|x]|e]; cbn [frame_step] in S.
    + injection S as <- <- <-. split; [discriminate|]. intros m [= <-]. apply FO. left. reflexivity.
    + injection S as <- <- <-. split; [discriminate|]. intros m _. exact I.
    + destruct e; injection S as <- <- <-; (split; [discriminate|]); intros m _; exact I.
Qed.
Lemma unwind_fine t fs : forall r d d' os a, unwind ord t r fs d = (d', os, a) -> (forall n v, In (GFound t n v) os -> A n v) -> entries (d_nodes d) -> safe fs -> gives_all fs r -> fine t (d', os, a).
Proof.
  induction fs as [|f fs IH]; intros r d d' os a U FO E S G; cbn [unwind] in U.
  - injection U as <- <- <-. apply fine_ret. exact E.
  - destruct S as (L & AL & S). cbn [gives_all] in G. destruct (frame_step ord t f r d) as [[d1 o1] [r1|w gs]] eqn:FS.
    + destruct (unwind ord t r1 fs d1) as [[d2 o2] a2] eqn:U2. injection U as <- <- <-.
      destruct (frame_fine _ _ _ _ _ _ _ FS) as ((F1 & _) & P1 & P2); [intros; apply FO, in_or_app; auto|exact E|exact L|exact G|]. cbn [gd fst] in F1.
      assert (H : fine t (d2, o2, a2)).
      { refine (IH _ _ _ _ _ U2 _ F1 S _); [intros; apply FO, in_or_app; auto|]. destruct fs as [|g fs]; [exact I|]. cbn [gives_all]. destruct g; cbn [allowed] in AL; try exact I; try contradiction.
        - specialize (P2 _ AL). destruct r1 as [[v|x]|e]; exact P2 || exact I.
        - cbn [gives]. destruct r1; exact (P1 AL).
        - specialize (P2 _ AL). destruct r1 as [[v|x]|e]; exact P2 || exact I. }
      destruct H as [H1 H2]. split; [exact H1|]. cbn [snd gos fst] in *. destruct a2 as [r2|w2 fs2]; [exact I|]. destruct H2 as [H2 H3]. split; [exact H2|]. apply (top_more _ _ _ _ _ H3). intros o J. apply in_or_app. auto.
    + injection U as <- <- <-. destruct (frame_fine _ _ _ _ _ _ _ FS FO E L G) as ((F1 & F2 & F3) & N1 & N2). cbn [gd gos fst snd] in *. split; [exact F1|]. cbn [snd gos fst].
      assert (HF : hd_free fs). { destruct fs as [|g fs]; [exact I|]. cbn. destruct g; cbn [allowed] in AL; try exact I; try contradiction; try (elim (N2 _ AL)); try (elim (N1 AL)). }
      split; [apply safe_app; auto|apply top_app; auto].
Qed.
Lemma start_fine t c d d' os a : start ord t c d = (d', os, a) -> entries (d_nodes d) -> match c with GReport (VNodeList l) => Forall R l | _ => True end -> fine t (d', os, a).
Proof.
  intros S E C. destruct (touches c) eqn:TC.
  - rewrite <- S. destruct c; try discriminate TC; cbn [start].
    + apply fine_list. exact E.
    + unfold start_report. destruct nodes; try (apply fine_ret; exact E). apply fine_report; [cbn; apply entries_filter; exact E|apply all_ord; exact C].
    + split; [exact E|]. cbn. auto.
  - rewrite <- S. apply (keeps_fine t d); [apply keeps_start; exact TC|exact E].
Qed.
End Stack.

(** ** Growing knowledge *)
Lemma safe_mono (R R' : Z -> Prop) fs : (forall n, R n -> R' n) -> safe R fs -> safe R' fs.
Proof.
  intros H. induction fs as [|f fs IH]; [auto|]. intros (L & AL & S). split; [|split; [exact AL|exact (IH S)]]. destruct f; try exact I; destruct L as [L1 L2]; (split; [auto|]); (eapply Forall_impl; [|exact L2]; exact H).
Qed.
Lemma entries_mono (R R' : Z -> Prop) (A A' : Z -> val -> Prop) T : (forall n, R n -> R' n) -> (forall n v, A n v -> A' n v) -> entries R A T -> entries R' A' T.
Proof. intros H1 H2 E n v J. destruct (E n v J) as [E1 [->|E2]]; auto. Qed.

Lemma nth_upd' {A} (l : list A) t x y : nth_error l t = Some y -> forall u, nth_error (upd t x l) u = if Nat.eqb u t then Some x else nth_error l u.
Proof.
  revert t. induction l as [|z l IH]; intros [|t] E u; try discriminate; destruct u as [|u]; cbn; auto.
Qed.
Lemma no_packet (b : gtrace) : forallb (fun x => match snd x with GPacket _ _ => false | _ => true end) b = true -> forall k bs a, ~ In (k, GPacket bs a) b.
Proof. rewrite forallb_forall. intros H k bs a J. discriminate (H _ J). Qed.
Section Exec.
Variable ord : list Z -> list Z.
Hypothesis it : iterates ord.
(** named by a report, the answer to a request as the task got it *)
Definition named0 (tr : gtrace) (n : Z) : Prop := exists rep l, getattr rep "nodes" = VNodeList l /\ In n l /\
  ((exists k bs a m, In (k, GPacket bs (Some a)) tr /\ decode bs = Ok m /\ rep = getattr m "command" /\ list_report rep) \/
   (exists k t u k' c, In (k, GBack t (AwCall None u) (Ok (GV rep))) tr /\ In (k', GSub t None u c) tr /\ list_get c)).
Lemma named0_app tr tr' n : named0 tr n -> named0 (tr ++ tr') n.
Proof.
  intros (rep & l & G & J & [(k & bs & a & m & H & D)|(k & t & u & k' & c & H1 & H2 & H3)]); exists rep, l; (split; [exact G|]); (split; [exact J|]).
  - left. exists k, bs, a, m. split; [apply in_or_app; auto|exact D].
  - right. exists k, t, u, k', c. split; [apply in_or_app; auto|]. split; [apply in_or_app; auto|exact H3].
Qed.
Lemma looked_app tr tr' n v : looked_up tr n v -> looked_up (tr ++ tr') n v. Proof. intros (k & t & J). exists k, t. apply in_or_app. auto. Qed.
Definition waits_ok (t : nat) (w : await) (fs : list frame) (tr : gtrace) : Prop := safe (named0 tr) fs /\ top t w fs (map snd tr).
Definition origin (s : gw) (tr : gtrace) : Prop := entries (named0 tr) (looked_up tr) (d_nodes (g_d s)) /\
  forall t c w fs, nth_error (g_tasks s) t = Some (mkGT c (GWait w fs)) -> waits_ok t w fs tr.
Lemma waits_more t w fs tr tr' : waits_ok t w fs tr -> waits_ok t w fs (tr ++ tr').
Proof. intros [S T]. split; [exact (safe_mono _ _ _ (fun n => named0_app tr tr' n) S)|]. apply (top_more _ _ _ _ _ T). intros o J. rewrite map_app. apply in_or_app. auto. Qed.
Lemma entries_more tr tr' T : entries (named0 tr) (looked_up tr) T -> entries (named0 (tr ++ tr')) (looked_up (tr ++ tr')) T.
Proof. apply entries_mono; intros; [apply named0_app|apply looked_app]; assumption. Qed.
Lemma origin_idle s s' tr tr' : origin s tr -> g_tasks s' = g_tasks s -> d_nodes (g_d s') = d_nodes (g_d s) -> origin s' (tr ++ tr').
Proof. intros [O1 O2] T N. split; [rewrite N; apply entries_more; exact O1|]. intros t c w fs E. rewrite T in E. apply waits_more. exact (O2 _ _ _ _ E). Qed.
Lemma stamped k o os : In o os -> In (k, o) (gstamp k os). Proof. intros J. apply in_map. exact J. Qed.
Lemma snd_stamp k os : map snd (gstamp k os) = os. Proof. unfold gstamp. rewrite map_map. cbn. apply map_id. Qed.
Lemma origin_spawn s tr c d os a k pre : origin s tr -> start ord (length (g_tasks s)) c (g_d s) = (d, os, a) ->
  match c with GReport (VNodeList l) => Forall (named0 (tr ++ gstamp k (pre ++ GCalled (length (g_tasks s)) c :: os ++ said (length (g_tasks s)) a))) l | _ => True end ->
  origin (mkG d (g_tasks s ++ [mkGT c (pc_of a)])) (tr ++ gstamp k (pre ++ GCalled (length (g_tasks s)) c :: os ++ said (length (g_tasks s)) a)).
Proof.
  intros [O1 O2] S C. set (b := gstamp k _) in *. assert (SB : map snd b = pre ++ GCalled (length (g_tasks s)) c :: os ++ said (length (g_tasks s)) a) by apply snd_stamp.
  destruct (start_fine ord it (named0 (tr ++ b)) (looked_up (tr ++ b)) _ _ _ _ _ _ S (entries_more _ _ _ O1) C) as [F1 F2]. cbn [gd gos fst snd] in *. split; [exact F1|]. intros t c' w fs E. cbn [g_tasks] in E.
  destruct (Nat.lt_trichotomy t (length (g_tasks s))) as [L|[->|L]].
  - rewrite nth_error_app1 in E by exact L. apply waits_more. exact (O2 _ _ _ _ E).
  - rewrite nth_error_app2, Nat.sub_diag in E by lia. injection E as <- E. destruct a as [r|w' fs']; [discriminate E|]. injection E as -> ->. destruct F2 as [F2 F3]. split; [exact F2|]. apply (top_more _ _ _ _ _ F3). intros o J. rewrite map_app, SB. apply in_or_app. right. apply in_or_app. right. right. apply in_or_app. auto.
  - rewrite nth_error_app2 in E by lia. destruct (t - length (g_tasks s))%nat as [|[|q]] eqn:Q; cbn in E; [lia|discriminate|discriminate].
Qed.
Lemma origin_wake s tr t c w fs r d1 d os a k pre : origin s tr -> nth_error (g_tasks s) t = Some (mkGT c (GWait w fs)) -> d_nodes d1 = d_nodes (g_d s) -> unwind ord t r fs d1 = (d, os, a) ->
  origin (mkG d (upd t (mkGT c (pc_of a)) (g_tasks s))) (tr ++ gstamp k (pre ++ GBack t w r :: os ++ said t a)).
Proof.
  intros [O1 O2] N D U. set (b := gstamp k _) in *. assert (SB : map snd b = pre ++ GBack t w r :: os ++ said t a) by apply snd_stamp.
  assert (IB : forall o, In o (pre ++ GBack t w r :: os ++ said t a) -> In (k, o) (tr ++ b)) by (intros o J; apply in_or_app; right; apply stamped; exact J).
  destruct (waits_more _ _ _ _ b (O2 _ _ _ _ N)) as [S T].
  assert (F : fine (named0 (tr ++ b)) (looked_up (tr ++ b)) t (d, os, a)).
  { refine (unwind_fine ord it (named0 (tr ++ b)) (looked_up (tr ++ b)) t fs r d1 d os a U _ _ S _).
    - intros n v J. exists k, t. apply IB. apply in_or_app. right. right. apply in_or_app. auto.
    - rewrite D. apply entries_more. exact O1.
    - destruct fs as [|f fs]; [exact I|]. cbn [gives_all]. destruct f; try exact I; try contradiction T. cbn [gives]. destruct r as [[rep|x]|e]; try exact I. destruct (getattr rep "nodes") eqn:G; try exact I.
      destruct T as (u & c' & -> & L & J). apply Forall_forall. intros n Jn. exists rep. eexists. split; [exact G|]. split; [exact Jn|]. right. apply in_map_iff in J as ([k' o] & Eo & J). cbn in Eo. subst o. exists k, t, u, k', c'. split; [apply IB, in_or_app; right; left; reflexivity|]. auto. }
  destruct F as [F1 F2]. cbn [gd gos fst snd] in *. split; [exact F1|]. intros t' c' w' fs' E. cbn [g_tasks] in E. rewrite (nth_upd' _ _ _ _ N) in E. destruct (Nat.eqb_spec t' t) as [->|NE].
  - injection E as <- E. destruct a as [r'|w2 fs2]; [discriminate E|]. injection E as -> ->. destruct F2 as [F2 F3]. split; [exact F2|]. apply (top_more _ _ _ _ _ F3). intros o J. rewrite map_app, SB. apply in_or_app. right. apply in_or_app. right. right. apply in_or_app. auto.
  - apply waits_more. exact (O2 _ _ _ _ E).
Qed.
Lemma step_origin s tr e s' os k : origin s tr -> gstep ord s e = Some (s', os) -> origin s' (tr ++ gstamp k os).
Proof.
  intros O. destruct e as [dt|c|l0 e|t r|bs addr]; cbn [gstep].
  - destruct (0 <=? dt); [|discriminate]. intros E. injection E as <- <-. apply (origin_idle s); [exact O|reflexivity|reflexivity].
  - intros E. assert (C : match c with GReport _ => False | _ => True end) by (destruct c; try exact I; discriminate E). assert (E' : spawn ord c s = (s', os)) by (destruct c; try contradiction; congruence).
    destruct (start ord (length (g_tasks s)) c (g_d s)) as [[d os1] a] eqn:S. rewrite (spawn_eq _ _ _ _ _ _ S) in E'. injection E' as <- <-. apply (origin_spawn s tr c d os1 a k [] O S). destruct c; try exact I; contradiction.
  - intros E.
    assert (K : exists e0 x k' xs, e0 = e /\ conn_at l0 (g_d s) = Some x /\ step x e = Some (k', xs) /\
      match returned xs with None => s' = mkG (set_conn l0 k' (g_d s)) (g_tasks s) | Some (u, r) => match waiter_of l0 u 0 (g_tasks s) with None => s' = mkG (set_conn l0 k' (g_d s)) (g_tasks s) | Some (t, fs) => exists o2, wake ord t (AwCall l0 u) (of_result r) fs (mkG (set_conn l0 k' (g_d s)) (g_tasks s)) = (s', o2) /\ os = flat_map (lift l0 (g_d s)) xs ++ o2 end end).
    { destruct e; try discriminate; destruct (conn_at l0 (g_d s)) as [x|]; try discriminate; match type of E with context [step x ?y] => destruct (step x y) as [[k' xs]|] eqn:ST; [|discriminate] end;
        (eexists _, x, k', xs; split; [reflexivity|]; split; [reflexivity|]; split; [exact ST|]); (destruct (returned xs) as [[uu rr]|]; [|injection E as <- <-; reflexivity]);
        (destruct (waiter_of l0 uu 0 (g_tasks s)) as [[tt0 fs]|]; [|injection E as <- <-; reflexivity]);
        match type of E with context [wake ord ?a0 ?b0 ?c0 ?d0 ?s0] => destruct (wake ord a0 b0 c0 d0 s0) as [s2 o2] eqn:W end; injection E as <- <-; exists o2; split; reflexivity. }
    clear E. destruct K as (_ & x & k' & xs & _ & _ & _ & K). assert (N : forall ts, d_nodes (g_d (mkG (set_conn l0 k' (g_d s)) ts)) = d_nodes (g_d s)) by (intros ts; cbn [Gateway.g_d]; apply same_set_conn).
    destruct (returned xs) as [[u r]|]; [|subst s'; apply (origin_idle s); [exact O|reflexivity|apply N]].
    destruct (waiter_of l0 u 0 (g_tasks s)) as [[t fs]|] eqn:W; [|subst s'; apply (origin_idle s); [exact O|reflexivity|apply N]].
    destruct K as (o2 & K & ->). apply waiter_of_some in W as (c & _ & W). rewrite Nat.sub_0_r in W.
    destruct (unwind ord t (of_result r) fs (set_conn l0 k' (g_d s))) as [[d os1] a] eqn:U. pose proof (wake_eq ord t c (AwCall l0 u) (of_result r) fs (mkG (set_conn l0 k' (g_d s)) (g_tasks s)) (set_conn l0 k' (g_d s)) d os1 a W U) as Q.
    cbn [g_tasks] in Q. rewrite K in Q. injection Q as -> ->. exact (origin_wake s tr t c _ fs _ _ _ _ _ k _ O W (N []) U).
  - intros E. destruct (nth_error (g_tasks s) t) as [[c [w fs|]]|] eqn:W; try discriminate.
    assert (K : exists d' r', d_nodes d' = d_nodes (g_d s) /\ wake ord t w r' fs (mkG d' (g_tasks s)) = (s', os)).
    { destruct w as [|l0|]; try discriminate.
      - destruct (conn_at l0 (g_d s)) as [x|]; [|discriminate]. eexists _, _. split; [|match type of E with Some ?y = Some ?z => assert (E2 : y = z) by congruence end; exact E2]. destruct r; [|reflexivity]. destruct (step x EvConnect) as [[k' z]|]; [apply same_set_conn|reflexivity].
      - exists (g_d s), (match r with Ok _ => Ok (GV VNone) | Err e => Err e end). split; [reflexivity|]. destruct s as [gd0 ts0]. cbn [g_d g_tasks] in *. congruence. }
    destruct K as (d' & r' & N & K). destruct (unwind ord t r' fs d') as [[d os1] a] eqn:U. pose proof (wake_eq ord t c w r' fs (mkG d' (g_tasks s)) d' d os1 a W U) as Q. cbn [g_tasks] in Q. rewrite K in Q. injection Q as -> ->.
    exact (origin_wake s tr t c w fs r' d' d os1 a k [] O W N U).
  - destruct (forallb is_byte bs); [|discriminate]. intros E. destruct (unsolicited bs addr (g_d s)) as [os0 [nodes|]] eqn:US.
    + destruct (start ord (length (g_tasks s)) (GReport nodes) (g_d s)) as [[d os1] a] eqn:S.
      rewrite (spawn_eq _ _ _ _ _ _ S) in E. injection E as <- <-. change (GPacket bs addr :: os0 ++ ?z) with ((GPacket bs addr :: os0) ++ z). apply (origin_spawn s tr (GReport nodes) d os1 a k (GPacket bs addr :: os0) O S).
      destruct nodes; try exact I. apply Forall_forall. intros n Jn. unfold unsolicited in US. destruct (decode bs) as [m|x] eqn:D; [|discriminate US]. destruct addr as [ad|]; [|discriminate US]. cbv zeta in US. destruct (is_msg m_NetworkManagementProxy_NodeListReport (getattr m "command")) eqn:IM.
      2: { destruct (from_ip ad (d_nodes (g_d s))); [|discriminate US]. destruct (truthy (getattr m "ackRequest")); [|discriminate US]. destruct (is_msg m_Zip_ZipPacket m); [|discriminate US]. destruct (do _ <- _; _); discriminate US. }
      injection US as <- G. exists (getattr m "command"). eexists. split; [exact G|]. split; [exact Jn|]. left. exists k, bs, ad, m. split; [apply in_or_app; right; left; reflexivity|]. split; [exact D|]. split; [reflexivity|]. right.
      unfold is_msg in IM. destruct (getattr m "command") as [| | | | | | | | | | | | | | | | | | | | | | | | |] eqn:GC; try discriminate IM. destruct c; try discriminate IM. eexists _, _. split; [reflexivity|]. apply String.eqb_eq in IM. exact IM.
    + injection E as <- <-. apply (origin_idle s); [exact O|reflexivity|reflexivity].
Qed.
Lemma exec_origin es s tr : gexec ord gw0 es s tr -> origin s tr.
Proof.
  induction 1 as [|es s tr e s' os X IH ST]; [|exact (step_origin _ _ _ _ _ _ IH ST)]. split; [intros n v []|]. intros [|t] c w fs E; discriminate.
Qed.
(** ** the answers were received *)
Lemma named0_named es s tr n : gexec ord gw0 es s tr -> named0 tr n -> named tr n.
Proof.
  intros X (rep & l & G & J & [(k & bs & a & m & H & D & E & LR)|(k & t & u & k' & c & H1 & H2 & (v & sq & _ & ->))]); exists rep, l.
  - split; [left; exists k, bs, a, m; auto|]. auto.
  - destruct (pairs _ _ _ _ X) as [P1 P2]. apply P1 in H2. destruct (P2 _ _ _ _ _ H1) as (r0 & ER & JR). destruct r0 as [x|m|x]; cbn in ER; try discriminate ER.
    + injection ER as ->. cbn in G. discriminate G.
    + injection ER as <-. destruct (exec_linked _ _ _ _ X) as [_ XL]. destruct (XL None) as (evs & X0). destruct (call_then_ret _ _ _ _ _ _ _ _ X0 H2 JR) as (a & b & rest & ET).
      pose proof ET as ET2. rewrite app_comm_cons, app_assoc in ET2. destruct (ConnRest.reply_fresh _ _ _ X0 _ _ _ ET2) as (a1 & n0 & c' & a2 & n1 & bs & EA1 & WA & JR1 & BR).
      pose proof (proj2 (exec_good _ _ _ X0)) as AA.
      destruct (split_unique _ AA a k' (CSendRecv v 0 0 (82 * 256 + 2) 3000) (b ++ (k, ORet u (RMsg rep)) :: rest) a1 n0 c' (a2 ++ (k, ORet u (RMsg rep)) :: rest) u) as (_ & _ & <- & _); [exact ET|rewrite ET; rewrite app_comm_cons, app_assoc, EA1, <- app_assoc; reflexivity|].
      split; [right; exists n1, bs; split; [|exact BR]|split; [left|auto]].
      * rewrite ET2, EA1. apply in_or_app. left. apply in_or_app. right. right. exact JR1.
      * cbn in WA. congruence.
Qed.
Lemma table_from es s tr n v : gexec ord gw0 es s tr -> known s n = Some v -> named tr n /\ (v = VNone \/ looked_up tr n v).
Proof.
  intros X K. destruct (exec_origin _ _ _ X) as [O _]. unfold known in K.
  assert (J : In (n, v) (d_nodes (g_d s))). { clear -K. induction (d_nodes (g_d s)) as [|[m x] T IH]; [discriminate|]. cbn in K. destruct (n =? m) eqn:E; [apply Z.eqb_eq in E; injection K as ->; subst; left; reflexivity|right; auto]. }
  destruct (O _ _ J) as [O1 O2]. split; [exact (named0_named _ _ _ _ X O1)|exact O2].
Qed.
End Exec.
