(** Quiet runs, ownership of sequence numbers, keep-alive, errors (C27-C31, C33). *)
From Coq Require Import String ZArith List Bool Lia ZifyBool ZifyNat.
From Verif Require Import Py BitStream Schema Registry Codec SpecBits BitLemmas SpecWire SpecDecode HeaderProofs ReportProofs
  Waiter Conn SpecConn ConnLemmas ConnPacket ConnAck ConnInv ConnCases ConnProps.
Import ListNotations.
Open Scope list_scope.
Open Scope string_scope.
Open Scope list_scope.
Open Scope Z_scope.

Lemma calm_run s0 es s tr : calm_exec s0 es s tr -> exec s0 es s tr.
Proof. induction 1; [constructor|econstructor; eassumption]. Qed.
Lemma nodup_fst {V} (l : list (Z * V)) k x y : NoDup (map fst l) -> In (k, x) l -> In (k, y) l -> x = y.
Proof.
  induction l as [|[j v] l IH]; cbn; [contradiction|]. intros N [A|A] [B|B]; inversion N; subst; auto.
  - congruence. - injection A as -> ->. elim H1. apply (in_map fst) in B. exact B. - injection B as -> ->. elim H1. apply (in_map fst) in A. exact A.
Qed.
Lemma nodup_snd (l : list (Z * nat)) k x y : NoDup (map snd l) -> In (x, k) l -> In (y, k) l -> x = y.
Proof.
  induction l as [|[j v] l IH]; cbn; [contradiction|]. intros N [A|A] [B|B]; inversion N; subst; auto.
  - congruence. - injection A as -> ->. elim H1. apply (in_map snd) in B. exact B. - injection B as -> ->. elim H1. apply (in_map snd) in A. exact A.
Qed.

Definition registered (s : conn) : Prop := forall t c aid sq dl ph ses, nth_error (c_tasks s) t = Some (mkT c (PAck aid sq dl ph ses)) ->
  In (sq, aid) (c_ackq s) \/ (ph = PhWaiting /\ exists d, nth_error (c_acks s) aid = Some (mkAck SReceived d true)).
(** tasks waiting for a message were asked to *)
Definition kinds (s : conn) : Prop := forall t c p, nth_error (c_tasks s) t = Some (mkT c p) ->
  match p with PWait h _ _ _ | PCancel h _ => match c with CSendRecv _ _ _ h' _ | CWait h' _ => h' = h | CSend _ _ _ _ => False end | _ => True end.

Lemma reg_upd t x tasks ackq acks : forall (R : forall t c aid sq dl ph ses, nth_error tasks t = Some (mkT c (PAck aid sq dl ph ses)) ->
    In (sq, aid) ackq \/ (ph = PhWaiting /\ exists d, nth_error acks aid = Some (mkAck SReceived d true))),
  (match t_pc x with PAck aid sq dl ph ses => In (sq, aid) ackq \/ (ph = PhWaiting /\ exists d, nth_error acks aid = Some (mkAck SReceived d true)) | _ => True end) ->
  forall t' c aid sq dl ph ses, nth_error (upd t x tasks) t' = Some (mkT c (PAck aid sq dl ph ses)) ->
    In (sq, aid) ackq \/ (ph = PhWaiting /\ exists d, nth_error acks aid = Some (mkAck SReceived d true)).
Proof.
  intros R P t' c aid sq dl ph ses E. rewrite nth_upd in E. destruct (Nat.eqb t t'); [|eauto]. destruct (nth_error tasks t); [|discriminate]. injection E as ->. exact P.
Qed.
Lemma kinds_upd t x tasks : (forall t c p, nth_error tasks t = Some (mkT c p) ->
  match p with PWait h _ _ _ | PCancel h _ => match c with CSendRecv _ _ _ h' _ | CWait h' _ => h' = h | CSend _ _ _ _ => False end | _ => True end) ->
  match t_pc x with PWait h _ _ _ | PCancel h _ => match t_call x with CSendRecv _ _ _ h' _ | CWait h' _ => h' = h | CSend _ _ _ _ => False end | _ => True end ->
  forall t' c p, nth_error (upd t x tasks) t' = Some (mkT c p) ->
  match p with PWait h _ _ _ | PCancel h _ => match c with CSendRecv _ _ _ h' _ | CWait h' _ => h' = h | CSend _ _ _ _ => False end | _ => True end.
Proof. intros K P t' c p E. rewrite nth_upd in E. destruct (Nat.eqb t t'); [|exact (K _ _ _ E)]. destruct (nth_error tasks t); [|discriminate]. injection E as ->. exact P. Qed.
Lemma kinds_new s c : kinds s -> kinds (s_new c s).
Proof. intros K t c' p E. cbn in E. rewrite nth_snoc in E. destruct (Nat.eqb t _); [injection E as <- <-; exact Logic.I|exact (K _ _ _ E)]. Qed.
Lemma step_kinds s tr e s' os : good s tr -> kinds s -> step s e = Some (s', os) -> kinds s'.
Proof.
  intros G K ST. destruct (good_case _ _ _ _ _ G ST); try exact K.
  1-4: unfold kinds; cbn [c_tasks set_task]; apply kinds_upd; [exact (kinds_new s _ K)|cbn; auto].
  1: unfold kinds; destruct (packet_frame_of _ _ _ _ _ G H0 H1) as (_ & [_ _ _ _ ->] & _); exact K.
  all: subst; unfold kinds; cbn [c_tasks set_task]; apply kinds_upd; [exact K|cbn [t_pc t_call]; try exact Logic.I]; try reflexivity.
  all: try (match goal with H : nth_error _ _ = Some _ |- _ => exact (K _ _ _ H) end).
Qed.
Lemma exec_kinds es s tr : exec conn0 es s tr -> kinds s.
Proof. induction 1 as [|es s tr e s' os X IH ST]; [intros [] c p E; discriminate|]. eapply step_kinds; [exact (proj1 (exec_good _ _ _ X))|exact IH|exact ST]. Qed.

Lemma reg_new s c : registered s -> registered (s_new c s).
Proof. intros R t c' aid sq dl ph ses E. cbn in E. rewrite nth_snoc in E. destruct (Nat.eqb t _); [discriminate|exact (R _ _ _ _ _ _ _ E)]. Qed.
Lemma step_registered s tr e s' os : good s tr -> registered s -> ((exists bs, e = EvPacket bs) -> ~ expiring s) -> step s e = Some (s', os) -> registered s'.
Proof.
  intros G R C ST. pose proof G as (I & _). destruct (good_case _ _ _ _ _ G ST); try exact R.
  - unfold registered; cbn [c_tasks set_task]; apply reg_upd; [exact (reg_new s _ R)|exact Logic.I].
  - unfold registered; cbn [c_tasks set_task]; apply reg_upd; [exact (reg_new s _ R)|exact Logic.I].
  - unfold registered; cbn [c_tasks set_task]. cbn [s_num reset_ka add_ack c_ackq c_acks c_tasks set_task set_w set_seq s_new]. rewrite dset_fresh by (apply dmem_false; assumption).
    apply reg_upd.
    + intros t c' aid sq dl ph ses' E. destruct (reg_new s c R _ _ _ _ _ _ _ E) as [J|(-> & d & N)]; [left; apply in_or_app; auto|right].
      split; [reflexivity|]. exists d. cbn in N. rewrite nth_error_app1; [exact N|exact (nth_lt _ _ _ N)].
    + left. apply in_or_app. right. left. reflexivity.
  - unfold registered; cbn [c_tasks set_task]; apply reg_upd; [exact (reg_new s _ R)|exact Logic.I].
  - destruct (packet_frame_of _ _ _ _ _ G H0 H1) as (AE & [_ _ _ _ ET] & _). unfold registered. rewrite ET.
    assert (CM : forall t c aid sq dl ph ses, nth_error (c_tasks s) t = Some (mkT c (PAck aid sq dl ph ses)) -> ph = PhWaiting).
    { intros t c aid sq dl ph ses E. destruct ph; [reflexivity| |]; elim C; eauto; do 7 eexists; (split; [exact E|discriminate]). }
    intros t c aid sq dl ph ses E. pose proof (CM _ _ _ _ _ _ _ E) as ->. specialize (R _ _ _ _ _ _ _ E).
    destruct AE as [E1 E2|q i a E1 E2 _ _ E3 E4|q i a d E1 E2 _ _ E3 E4].
    + rewrite E1, E2. exact R.
    + rewrite E3, E4. destruct (Nat.eqb_spec i aid) as [<-|NE].
      * right. split; [reflexivity|]. exists (a_delay a). rewrite nth_upd, Nat.eqb_refl, E2. reflexivity.
      * rewrite nth_upd_other by exact NE. destruct R as [J|R]; [left|right; exact R]. apply in_ddel. split; [exact J|]. cbn. intros ->.
        apply NE. apply dget_in in E1. exact (nodup_fst _ _ _ _ (ia_keys _ _ _ _ _ I) E1 J).
    + rewrite E3, E4. destruct R as [J|(_ & d' & N)]; [left; exact J|right]. split; [reflexivity|]. exists d'. rewrite nth_upd_other; [exact N|]. intros ->.
      rewrite E2 in N. injection N as ->. destruct (ia_ackq _ _ _ _ _ I _ _ (dget_in _ _ _ E1)) as (a' & N' & S). rewrite E2 in N'. injection N' as <-. apply S. reflexivity.
  - unfold registered; cbn [c_tasks set_task]; apply reg_upd; [exact R|]. cbn [t_pc set_task c_ackq]. left. destruct (R _ _ _ _ _ _ _ H) as [J|(_ & d & N)]; [exact J|]. rewrite H0 in N. injection N as ->. discriminate.
  - unfold registered; cbn [c_tasks set_task]; apply reg_upd; [exact R|exact Logic.I].
  - unfold registered; cbn [c_tasks c_ackq c_acks set_task set_ack].
    assert (R' : forall t c aid' sq dl ph ses, nth_error (c_tasks s) t = Some (mkT c (PAck aid' sq dl ph ses)) -> In (sq, aid') (c_ackq s) \/ ph = PhWaiting /\ exists d0, nth_error (upd aid (mkAck SQueued d false) (c_acks s)) aid' = Some (mkAck SReceived d0 true)).
    { intros t' c' aid' sq' dl' ph ses' E. destruct (R _ _ _ _ _ _ _ E) as [J|(-> & d' & N)]; [left; exact J|]. right. split; [reflexivity|]. exists d'. rewrite nth_upd_other; [exact N|]. intros ->. rewrite H0 in N. discriminate. }
    apply reg_upd; [exact R'|]. cbn [t_pc]. exact (R' _ _ _ _ _ _ _ H).
  - subst. unfold registered; cbn [c_tasks set_task]; apply reg_upd; [exact R|exact Logic.I].
  - unfold registered; cbn [c_tasks set_task]; apply reg_upd; [exact R|exact Logic.I].
  - unfold registered; cbn [c_tasks set_task]; apply reg_upd; [exact R|]. cbn [t_pc set_task c_ackq]. left. destruct (R _ _ _ _ _ _ _ H) as [J|(X & _)]; [exact J|discriminate].
  - unfold registered; cbn [c_tasks c_ackq c_acks set_task set_ackq]. intros t' c' aid' sq' dl' ph ses' E. rewrite nth_upd in E. destruct (Nat.eqb_spec t t') as [<-|NE]; [rewrite H in E; discriminate|].
    destruct (R _ _ _ _ _ _ _ E) as [J|N]; [left|right; exact N]. apply in_ddel. split; [exact J|]. cbn. intros ->. apply NE.
    destruct (R _ _ _ _ _ _ _ H) as [J'|(X & _)]; [|discriminate]. pose proof (nodup_fst _ _ _ _ (ia_keys _ _ _ _ _ I) J J') as ->. exact (ia_inj _ _ _ _ _ I _ _ _ _ _ _ _ _ _ _ _ _ _ H E).
  - unfold registered; cbn [c_tasks c_ackq c_acks set_task set_ackq set_w]. intros t' c' aid' sq' dl' ph' ses' E. rewrite nth_upd in E. destruct (Nat.eqb_spec t t') as [<-|NE]; [rewrite H in E; discriminate|].
    destruct (R _ _ _ _ _ _ _ E) as [J|N]; [left|right; exact N]. apply in_ddel. split; [exact J|]. cbn. intros ->. apply NE.
    destruct (R _ _ _ _ _ _ _ H) as [J'|(X & _)]; [|discriminate]. pose proof (nodup_fst _ _ _ _ (ia_keys _ _ _ _ _ I) J J') as ->. exact (ia_inj _ _ _ _ _ I _ _ _ _ _ _ _ _ _ _ _ _ _ H E).
  - unfold registered; cbn [c_tasks set_task]; apply reg_upd; [exact R|exact Logic.I].
  - unfold registered; cbn [c_tasks set_task]; apply reg_upd; [exact R|exact Logic.I].
  - unfold registered; cbn [c_tasks set_task]; apply reg_upd; [exact R|exact Logic.I].
  - unfold registered; cbn [c_tasks set_task]; apply reg_upd; [exact R|exact Logic.I].
  - unfold registered; cbn [c_tasks set_task]; apply reg_upd; [exact R|exact Logic.I].
  - unfold registered; cbn [c_tasks set_task]; apply reg_upd; [exact R|exact Logic.I].
  - unfold registered; cbn [c_tasks set_task]; apply reg_upd; [exact R|exact Logic.I].
  - unfold registered; cbn [c_tasks set_task]; apply reg_upd; [exact R|exact Logic.I].
Qed.
Lemma calm_registered es s tr : calm_exec conn0 es s tr -> registered s.
Proof.
  induction 1 as [|es s tr e s' os X IH ST C]; [intros [] c aid sq dl ph ses E; discriminate|].
  eapply step_registered; [exact (proj1 (exec_good _ _ _ (calm_run _ _ _ _ X)))|exact IH|exact C|exact ST].
Qed.

(** ** C27 *)
Lemma unique_numbers es s tr t t' c c' aid aid' sq dl dl' ph ph' ses ses' a a' : calm_exec conn0 es s tr ->
  nth_error (c_tasks s) t = Some (mkT c (PAck aid sq dl ph ses)) -> nth_error (c_tasks s) t' = Some (mkT c' (PAck aid' sq dl' ph' ses')) ->
  nth_error (c_acks s) aid = Some a -> nth_error (c_acks s) aid' = Some a' -> a_status a <> SReceived -> a_status a' <> SReceived -> t = t'.
Proof.
  intros X E E' N N' S S'. pose proof (calm_registered _ _ _ X) as R. destruct (exec_good _ _ _ (calm_run _ _ _ _ X)) as [(I & _) _].
  destruct (R _ _ _ _ _ _ _ E) as [J|(_ & d & N1)]; [|rewrite N in N1; injection N1 as ->; elim S; reflexivity].
  destruct (R _ _ _ _ _ _ _ E') as [J'|(_ & d & N1)]; [|rewrite N' in N1; injection N1 as ->; elim S'; reflexivity].
  pose proof (nodup_fst _ _ _ _ (ia_keys _ _ _ _ _ I) J J') as ->. exact (ia_inj _ _ _ _ _ I _ _ _ _ _ _ _ _ _ _ _ _ _ E E').
Qed.
Lemma refused es s tr c cmd sep dep b i : exec conn0 es s tr -> payload c = Some (cmd, sep, dep) -> 0 <= sep < 128 -> 0 <= dep < 128 -> encodes cmd b ->
  dget Z.eqb ((sends tr + 1) mod 256) (c_ackq s) = Some i ->
  exists s' os, step s (EvCall c) = Some (s', os ++ [ORet (length (c_tasks s)) (RExc EDuplicateAck)]) /\ c_ackq s' = c_ackq s /\ c_acks s' = c_acks s /\
    (forall t, (t < length (c_tasks s))%nat -> nth_error (c_tasks s') t = nth_error (c_tasks s) t).
Proof.
  intros X P H1 H2 EN D. destruct (exec_good _ _ _ X) as [G _]. pose proof G as (I & SQ & _).
  pose proof (Z.mod_pos_bound (sends tr + 1) 256 ltac:(lia)) as MB. destruct (send_bytes_ok _ sep dep cmd b MB H1 H2 EN) as (cbs & _ & _ & _ & C4).
  destruct (step s (EvCall c)) as [[s' os]|] eqn:ST.
  - pose proof (good_case _ _ _ _ _ G ST) as K. inversion K; subst; try discriminate P; rewrite SQ, land255 in *;
      match goal with H : payload c = Some _ |- _ => rewrite H in P; injection P as -> -> -> end; rewrite C4 in *; try discriminate.
    + rewrite app_comm_cons. do 2 eexists. split; [reflexivity|]. split; [reflexivity|]. split; [reflexivity|].
      intros t L. cbn. rewrite nth_upd_other by lia. apply nth_error_app1. exact L.
    + unfold dmem in *. rewrite D in *. discriminate.
  - cbn [step] in ST. destruct (start_call _ _ _); discriminate.
Qed.

(** ** C28 *)
Lemma step_returns s tr e s' os t r : good s tr -> registered s -> kinds s -> step s e = Some (s', os) -> In (ORet t r) os ->
  (t < length (c_tasks s))%nat -> (exists cmd sep dep tmo p, nth_error (c_tasks s) t = Some (mkT (CSend cmd sep dep tmo) p)) ->
  (exists b, r = RBool b) \/ (r = RExc ECancelled /\ e = EvCancel t).
Proof.
  intros G R K ST J L (cmd & sep & dep & tmo & p & E). destruct (good_case _ _ _ _ _ G ST); subst; cbn in J; try contradiction.
  all: repeat match goal with H : _ \/ _ |- _ => destruct H as [H|H]; try discriminate; try contradiction end.
  all: try (injection J as <- <-); auto; try lia; eauto.
  - apply in_app_iff in J as [J|[J|[]]]; [unfold conn_send in J; destruct (c_up s); [destruct J as [J|[]]|contradiction]; discriminate|]. injection J as <- _. lia.
  - unfold conn_send in J; destruct (c_up s); [destruct J as [J|[]]|contradiction]; discriminate.
  - destruct (packet_frame_of _ _ _ _ _ G H0 H1) as (_ & _ & PO). rewrite Forall_forall in PO. elim (PO _ J).
  - destruct (R _ _ _ _ _ _ _ H) as [J'|(X & _)]; [|discriminate]. unfold dmem in H0. pose proof G as (I & _). rewrite (in_dget _ _ _ (ia_keys _ _ _ _ _ I) J') in H0. discriminate.
  - rewrite E in H. injection H as <- ->. elim (K _ _ _ E).
  - rewrite E in H. injection H as <- ->. elim (K _ _ _ E).
  - rewrite E in H. injection H as <- ->. elim (K _ _ _ E).
  - rewrite E in H. injection H as <- ->. elim (K _ _ _ E).
  - unfold conn_send in J; destruct (c_up s); [destruct J as [J|[]]|contradiction]; discriminate.
Qed.
Lemma step_task s tr e s' os t c p : good s tr -> step s e = Some (s', os) -> nth_error (c_tasks s) t = Some (mkT c p) -> exists p', nth_error (c_tasks s') t = Some (mkT c p').
Proof.
  intros G ST E. pose proof (nth_lt _ _ _ E) as L.
  assert (UP : forall t' x, nth_error (c_tasks s) t' = Some x -> forall p', exists p1, nth_error (upd t' (mkT (t_call x) p') (c_tasks s)) t = Some (mkT c p1)).
  { intros t' x E' p'. rewrite nth_upd. destruct (Nat.eqb_spec t' t) as [->|]; [rewrite E; rewrite E in E'; injection E' as <-; eauto|eauto]. }
  destruct (good_case _ _ _ _ _ G ST); subst; cbn; eauto.
  1-4: (rewrite nth_upd_other by lia; rewrite nth_error_app1 by exact L; eauto).
  1: destruct (packet_frame_of _ _ _ _ _ G H0 H1) as (_ & [_ _ _ _ ->] & _); eauto.
  all: try (match goal with U : forall t' x, _ -> forall p', exists p1, _, H : nth_error _ _ = Some _ |- _ => exact (U _ _ H _) end).
Qed.
Lemma step_len s tr e s' os : good s tr -> step s e = Some (s', os) -> (length (c_tasks s) <= length (c_tasks s'))%nat.
Proof.
  intros G ST. destruct (Nat.le_gt_cases (length (c_tasks s)) (length (c_tasks s'))) as [|L]; [assumption|].
  destruct (nth_error (c_tasks s) (length (c_tasks s'))) as [[c p]|] eqn:E.
  - destruct (step_task _ _ _ _ _ _ _ _ G ST E) as (p' & E'). apply nth_lt in E'. lia.
  - apply nth_error_None in E. lia.
Qed.
Lemma send_outcome es1 s1 tr1 cmd sep dep tmo b s2 os es2 s3 tr3 n r : calm_exec conn0 es1 s1 tr1 -> 0 <= sep < 128 -> 0 <= dep < 128 -> encodes cmd b ->
  dget Z.eqb ((sends tr1 + 1) mod 256) (c_ackq s1) = None ->
  step s1 (EvCall (CSend cmd sep dep tmo)) = Some (s2, os) -> calm_exec s2 es2 s3 tr3 ->
  In (n, ORet (length (c_tasks s1)) r) (stamp (c_now s1) os ++ tr3) -> (exists v, r = RBool v) \/ (r = RExc ECancelled /\ In (EvCancel (length (c_tasks s1))) es2).
Proof.
  intros X H1 H2 EN D ST X2. set (t := length (c_tasks s1)).
  assert (CM : calm_exec conn0 (es1 ++ [EvCall (CSend cmd sep dep tmo)]) s2 (tr1 ++ stamp (c_now s1) os)) by (econstructor; [exact X|exact ST|intros (bs & E); discriminate]).
  assert (FIRST : (forall r, ~ In (ORet t r) os) /\ (exists p, nth_error (c_tasks s2) t = Some (mkT (CSend cmd sep dep tmo) p))).
  { destruct (exec_good _ _ _ (calm_run _ _ _ _ X)) as [G _]. pose proof G as (I & SQ & _).
    pose proof (Z.mod_pos_bound (sends tr1 + 1) 256 ltac:(lia)) as MB. destruct (send_bytes_ok _ sep dep cmd b MB H1 H2 EN) as (cbs & _ & _ & _ & C4).
    pose proof (good_case _ _ _ _ _ G ST) as K. inversion K; subst; rewrite SQ, land255 in *;
      match goal with H : payload _ = Some _ |- _ => injection H as <- <- <- end; rewrite C4 in *; try discriminate; unfold dmem in *; rewrite D in *; try discriminate.
    split; [|cbn; eexists; rewrite nth_upd, Nat.eqb_refl, nth_snoc, Nat.eqb_refl; reflexivity].
    intros r' [J|J]; [discriminate|]. unfold conn_send in J. destruct (c_up s1); [destruct J as [J|[]]; discriminate|contradiction]. }
  destruct FIRST as [F0 F1]. intros J. apply in_app_iff in J as [J|J].
  { unfold stamp in J. apply in_map_iff in J as (o & E & J). injection E as _ ->. elim (F0 _ J). }
  assert (GEN : forall es s tr, calm_exec s2 es s tr -> calm_exec conn0 ((es1 ++ [EvCall (CSend cmd sep dep tmo)]) ++ es) s ((tr1 ++ stamp (c_now s1) os) ++ tr) /\ (exists p, nth_error (c_tasks s) t = Some (mkT (CSend cmd sep dep tmo) p)) /\
    (forall n r, In (n, ORet t r) tr -> (exists v, r = RBool v) \/ (r = RExc ECancelled /\ In (EvCancel t) es))).
  { induction 1 as [|es s tr e s' os' Y (IHX & (p & IHT) & IHR) ST' C'].
    - rewrite !app_nil_r. split; [exact CM|]. split; [exact F1|]. intros ? ? [].
    - destruct (exec_good _ _ _ (calm_run _ _ _ _ IHX)) as [G _]. split; [rewrite !app_assoc; econstructor; eassumption|]. split; [eapply step_task; eassumption|].
      intros n' r' J'. apply in_app_iff in J' as [J'|J'].
      + destruct (IHR _ _ J') as [|[]]; [auto|right]. split; [assumption|]. apply in_or_app. auto.
      + unfold stamp in J'. apply in_map_iff in J' as (o & E & J'). injection E as _ ->.
        destruct (step_returns _ _ _ _ _ _ _ G (calm_registered _ _ _ IHX) (exec_kinds _ _ _ (calm_run _ _ _ _ IHX)) ST' J' (nth_lt _ _ _ IHT)) as [|[-> ->]]; [do 5 eexists; exact IHT|auto|].
        right. split; [reflexivity|]. apply in_or_app. right. left. reflexivity. }
  destruct (GEN _ _ _ X2) as (_ & _ & R). exact (R _ _ J).
Qed.

(** ** C29 *)
Definition owners (s : conn) (tr : trace) : Prop := forall q i, In (q, i) (c_ackq s) -> exists t c p n k, nth_error (c_tasks s) t = Some (mkT c p) /\ born tr t c n k /\ (q = (k + 1) mod 256 /\ sending c = true) /\
  ((exists dl ph ses, p = PAck i q dl ph ses) \/ p = PDone (RExc ECancelled)).
Definition final (s : conn) (tr : trace) : Prop := forall n t r, In (n, ORet t r) tr -> exists c, nth_error (c_tasks s) t = Some (mkT c (PDone r)).
Lemma own_upd s tr x t c p p' ackq' : owners s tr -> nth_error (c_tasks s) t = Some (mkT c p) -> (forall y, In y ackq' -> In y (c_ackq s)) ->
  (forall q i, In (q, i) ackq' -> (exists dl ph ses, p = PAck i q dl ph ses) \/ p = PDone (RExc ECancelled) -> (exists dl ph ses, p' = PAck i q dl ph ses) \/ p' = PDone (RExc ECancelled)) ->
  forall q i, In (q, i) ackq' -> exists t' c' p1 n k, nth_error (upd t (mkT c p') (c_tasks s)) t' = Some (mkT c' p1) /\ born (tr ++ x) t' c' n k /\ (q = (k + 1) mod 256 /\ sending c' = true) /\
  ((exists dl ph ses, p1 = PAck i q dl ph ses) \/ p1 = PDone (RExc ECancelled)).
Proof.
  intros O E SUB P q i J. destruct (O q i (SUB _ J)) as (t' & c' & p1 & n & k & E' & B & Q & OW). destruct (Nat.eqb_spec t t') as [<-|NE].
  - rewrite E in E'. injection E' as <- <-. exists t, c, p', n, k. split; [rewrite nth_upd, Nat.eqb_refl, E; reflexivity|]. split; [apply born_app; exact B|]. split; [exact Q|]. exact (P q i J OW).
  - exists t', c', p1, n, k. split; [rewrite nth_upd_other by exact NE; exact E'|]. split; [apply born_app; exact B|]. auto.
Qed.
Lemma own_new s tr x c p ackq' : owners s tr -> (forall y, In y ackq' -> In y (c_ackq s)) ->
  forall q i, In (q, i) ackq' -> exists t' c' p1 n k, nth_error (upd (length (c_tasks s)) (mkT c p) (c_tasks (s_new c s))) t' = Some (mkT c' p1) /\ born (tr ++ x) t' c' n k /\ (q = (k + 1) mod 256 /\ sending c' = true) /\
  ((exists dl ph ses, p1 = PAck i q dl ph ses) \/ p1 = PDone (RExc ECancelled)).
Proof.
  intros O SUB q i J. destruct (O q i (SUB _ J)) as (t' & c' & p1 & n & k & E' & B & Q & OW). exists t', c', p1, n, k. pose proof (nth_lt _ _ _ E') as L.
  split; [rewrite nth_upd_other by lia; cbn; rewrite nth_error_app1; assumption|]. split; [apply born_app; exact B|]. auto.
Qed.
Lemma step_owners s tr e s' os : good s tr -> kinds s -> owners s tr -> step s e = Some (s', os) -> owners s' (tr ++ stamp (c_now s) os).
Proof.
  intros G K O ST. pose proof G as (I & SQ & _).
  assert (SAME : forall x, owners s (tr ++ x)).
  { intros x q i J. destruct (O q i J) as (t & c & p & n & k & E & B & R). exists t, c, p, n, k. split; [exact E|]. split; [apply born_app; exact B|exact R]. }
  assert (ALL : forall t c p, nth_error (c_tasks s) t = Some (mkT c p) -> forall p', match p with PAck _ _ _ _ _ | PDone _ => False | _ => True end ->
     forall q i, In (q, i) (c_ackq s) -> (exists dl ph ses, p = PAck i q dl ph ses) \/ p = PDone (RExc ECancelled) -> (exists dl ph ses, p' = PAck i q dl ph ses) \/ p' = PDone (RExc ECancelled)).
  { intros t c p _ p' NP q i _ [(dl & ph & ses & ->)| ->]; contradiction. }
  destruct (good_case _ _ _ _ _ G ST).
  - exact (SAME _).
  - exact (SAME _).
  - intros q i. cbn [c_tasks c_ackq set_task s_num set_w set_seq]. apply own_new; [exact O|auto].
  - intros q i. cbn [c_tasks c_ackq set_task s_num set_w set_seq reset_ka]. apply own_new; [exact O|auto].
  - rewrite SQ, land255 in *. intros q i J. cbn [c_ackq set_task s_num set_w set_seq reset_ka add_ack s_new] in J. rewrite dset_fresh in J by (apply dmem_false; assumption). apply in_app_iff in J as [J|[J|[]]].
    + cbn [c_tasks set_task s_num set_w set_seq reset_ka add_ack]. revert q i J. apply own_new; [exact O|auto].
    + injection J as <- <-. exists (length (c_tasks s)), c. do 3 eexists. split; [cbn; rewrite nth_upd, Nat.eqb_refl, nth_snoc, Nat.eqb_refl; reflexivity|]. split; [exists tr; eexists; split; reflexivity|].
      split; [split; [reflexivity|destruct c; [reflexivity|reflexivity|discriminate H]]|]. left. do 3 eexists. reflexivity.
  - intros q i. cbn [c_tasks c_ackq set_task set_w]. apply own_new; [exact O|auto].
  - destruct (packet_frame_of _ _ _ _ _ G H0 H1) as (AE & [_ _ _ _ ET] & _). intros q i J. rewrite ET. apply SAME.
    destruct AE as [E1 E2|q' i' a E1 E2 _ _ E3 E4|q' i' a d E1 E2 _ _ E3 E4]; [rewrite E1 in J; exact J|rewrite E3 in J; apply in_ddel in J; tauto|rewrite E3 in J; exact J].
  - intros q i. cbn [c_tasks c_ackq set_task]. eapply own_upd; [exact O|exact H|auto|]. intros q' i' _ [(? & ? & ? & X)|X]; [|discriminate]. injection X as -> -> <- _ <-. left. do 3 eexists. reflexivity.
  - intros q i. cbn [c_tasks c_ackq set_task]. eapply own_upd; [exact O|exact H|auto|]. eapply ALL; [exact H|exact Logic.I].
  - intros q i. cbn [c_tasks c_ackq set_task set_ack]. eapply own_upd; [exact O|exact H|auto|]. intros q' i' _ [(? & ? & ? & X)|X]; [|discriminate]. injection X as -> -> <- _ <-. left. do 3 eexists. reflexivity.
  - subst s' os. intros q i. cbn [c_tasks c_ackq set_task]. eapply own_upd; [exact O|exact H|auto|]. intros q' i' J [(? & ? & ? & X)|X]; [|discriminate]. injection X as -> -> <- _.
    exfalso. destruct (ia_ackq _ _ _ _ _ I _ _ J) as (a & N & S). rewrite H0 in N. injection N as <-. pose proof (ia_set _ _ _ _ _ I _ _ H0 eq_refl) as S'. cbn in *. destruct st; congruence.
  - intros q i. cbn [c_tasks c_ackq set_task set_w]. eapply own_upd; [exact O|exact H|auto|]. intros q' i' J [(? & ? & ? & X)|X]; [|discriminate]. injection X as -> -> <- _.
    exfalso. destruct (ia_ackq _ _ _ _ _ I _ _ J) as (a & N & S). rewrite H0 in N. injection N as <-. pose proof (ia_set _ _ _ _ _ I _ _ H0 eq_refl) as S'. cbn in *. destruct st; congruence.
  - intros q i. cbn [c_tasks c_ackq set_task]. eapply own_upd; [exact O|exact H|auto|]. intros q' i' _ [(? & ? & ? & X)|X]; [|discriminate]. injection X as -> -> <- _ <-. left. do 3 eexists. reflexivity.
  - intros q i. cbn [c_tasks c_ackq set_task set_ackq]. eapply own_upd; [exact O|exact H|intros y J; apply in_ddel in J; tauto|]. intros q' i' J [(? & ? & ? & X)|X]; [|discriminate]. injection X as -> -> <- _.
    exfalso. apply in_ddel in J as [_ J]. apply J. reflexivity.
  - intros q i. cbn [c_tasks c_ackq set_task set_ackq set_w]. eapply own_upd; [exact O|exact H|intros y J; apply in_ddel in J; tauto|]. intros q' i' J [(? & ? & ? & X)|X]; [|discriminate]. injection X as -> -> <- _.
    exfalso. apply in_ddel in J as [_ J]. apply J. reflexivity.
  - intros q i. cbn [c_tasks c_ackq set_task]. eapply own_upd; [exact O|exact H|auto|]. intros q' i' J [(? & ? & ? & X)|X]; [|discriminate]. injection X as -> -> <- _ _.
    exfalso. unfold dmem in H0. rewrite (in_dget _ _ _ (ia_keys _ _ _ _ _ I) J) in H0. discriminate.
  - intros q i. cbn [c_tasks c_ackq set_task set_w]. eapply own_upd; [exact O|exact H|auto|]. eapply ALL; [exact H|exact Logic.I].
  - intros q i. cbn [c_tasks c_ackq set_task set_w]. eapply own_upd; [exact O|exact H|auto|]. eapply ALL; [exact H|exact Logic.I].
  - intros q i. cbn [c_tasks c_ackq set_task set_w]. eapply own_upd; [exact O|exact H|auto|]. eapply ALL; [exact H|exact Logic.I].
  - intros q i. cbn [c_tasks c_ackq set_task set_w]. eapply own_upd; [exact O|exact H|auto|]. eapply ALL; [exact H|exact Logic.I].
  - intros q i. cbn [c_tasks c_ackq set_task set_w]. eapply own_upd; [exact O|exact H|auto|]. eapply ALL; [exact H|exact Logic.I].
  - intros q i. cbn [c_tasks c_ackq set_task]. eapply own_upd; [exact O|exact H|auto|]. auto.
  - intros q i. cbn [c_tasks c_ackq set_task set_w]. eapply own_upd; [exact O|exact H|auto|]. eapply ALL; [exact H|exact Logic.I].
  - exact (SAME _).
Qed.
(** a call that returned is done with that result *)
Lemma step_final s tr e s' os : good s tr -> final s tr -> step s e = Some (s', os) -> final s' (tr ++ stamp (c_now s) os).
Proof.
  intros G F ST n t r J. apply in_app_iff in J as [J|J].
  - destruct (F n t r J) as (c & E). pose proof (nth_lt _ _ _ E) as L. exists c. destruct (good_case _ _ _ _ _ G ST); subst; cbn; try exact E.
    1-4: (rewrite nth_upd_other by lia; rewrite nth_error_app1 by exact L; exact E).
    1: destruct (packet_frame_of _ _ _ _ _ G H0 H1) as (_ & [_ _ _ _ ->] & _); exact E.
    all: rewrite nth_upd_other; [exact E|]; intros ->; rewrite E in *; discriminate.
  - unfold stamp in J. apply in_map_iff in J as (o & X & J). injection X as _ ->.
    destruct (good_case _ _ _ _ _ G ST); subst; cbn in J; try contradiction.
    all: repeat match goal with H : _ \/ _ |- _ => destruct H as [H|H]; try discriminate; try contradiction end.
    all: try (injection J as <- <-; cbn; eexists; rewrite nth_upd, Nat.eqb_refl; first [rewrite H; reflexivity|rewrite nth_snoc, Nat.eqb_refl; reflexivity]).
    + apply in_app_iff in J as [J|[J|[]]]; [unfold conn_send in J; destruct (c_up s); [destruct J as [J|[]]|contradiction]; discriminate|].
      injection J as <- <-; cbn; eexists; rewrite nth_upd, Nat.eqb_refl, nth_snoc, Nat.eqb_refl; reflexivity.
    + unfold conn_send in J; destruct (c_up s); [destruct J as [J|[]]|contradiction]; discriminate.
    + destruct (packet_frame_of _ _ _ _ _ G H0 H1) as (_ & _ & PO). rewrite Forall_forall in PO. elim (PO _ J).
    + unfold conn_send in J; destruct (c_up s); [destruct J as [J|[]]|contradiction]; discriminate.
Qed.
Lemma exec_owners es s tr : exec conn0 es s tr -> owners s tr /\ final s tr.
Proof.
  induction 1 as [|es s tr e s' os X [IH1 IH2] ST]; [split; [intros q i []|intros n t r []]|].
  split; [eapply step_owners; [exact (proj1 (exec_good _ _ _ X))|exact (exec_kinds _ _ _ X)|exact IH1|exact ST]|].
  eapply step_final; [exact (proj1 (exec_good _ _ _ X))|exact IH2|exact ST].
Qed.
Lemma outstanding_owner es s tr q i : exec conn0 es s tr -> dget Z.eqb q (c_ackq s) = Some i ->
  exists t c n k, born tr t c n k /\ sending c = true /\ q = (k + 1) mod 256 /\ forall r, ended tr t r -> r = RExc ECancelled.
Proof.
  intros X D. destruct (exec_owners _ _ _ X) as [O F]. destruct (O q i (dget_in _ _ _ D)) as (t & c & p & n & k & E & B & (Q & SC) & OW). exists t, c, n, k. split; [exact B|].
  split; [|split; [exact Q|]].
  - exact SC.
  - intros r (m & J). destruct (F m t r J) as (c' & E'). rewrite E in E'. injection E' as <- ->. destruct OW as [(dl & ph & ses & X')|X']; [discriminate|]. injection X' as ->. reflexivity.
Qed.
