(** C119: proofs that the tasks of the application end. *)
From Coq Require Import String ZArith List Bool Lia.
From Verif Require Import Py Schema Registry Codec Waiter Conn NodeM AppM SpecApp AppProofs SpecAppLive.
Import ListNotations.
Open Scope list_scope.
Open Scope string_scope.
Open Scope list_scope.
Open Scope Z_scope.

(** ** An order without infinite descent *)
Definition rk := (nat * nat * nat * nat)%type.
Definition below (x y : rk) : Prop :=
  let '(a1, a2, a3, a4) := x in let '(b1, b2, b3, b4) := y in
  (a1 < b1 \/ a1 = b1 /\ (a2 < b2 \/ a2 = b2 /\ (a3 < b3 \/ a3 = b3 /\ a4 < b4)))%nat.
Lemma below_wf : well_founded below.
Proof.
  intros [[[a b] c] d]. revert b c d. induction a as [a IA] using (well_founded_induction Wf_nat.lt_wf). intros b.
  induction b as [b IB] using (well_founded_induction Wf_nat.lt_wf). intros c. induction c as [c IC] using (well_founded_induction Wf_nat.lt_wf). intros d.
  induction d as [d ID] using (well_founded_induction Wf_nat.lt_wf). constructor. intros [[[a' b'] c'] d'] H. cbn in H.
  destruct H as [H|[-> [H|[-> [H|[-> H]]]]]]; [apply IA; exact H|apply IB; exact H|apply IC; exact H|apply ID; exact H].
Qed.
Lemma below_trans x y z : below x y -> below y z -> below x z.
Proof. destruct x as [[[? ?] ?] ?], y as [[[? ?] ?] ?], z as [[[? ?] ?] ?]. cbn. lia. Qed.

(** ** How far a task is from its end *)
Definition k_left (k : kont) : nat := match k with KLoad => 0 | KUpdate rest _ | KStart rest => List.length rest end.
Definition rank (p : apc) : rk :=
  match p with
  | PEnd _ => (0, 0, 0, 0)
  | PHandle | PChip | PStatus | POffer | PZeros => (1, 0, 0, 0)
  | PZero => (1, 1, 0, 0)
  | PRemStatus _ => (1, 2, 0, 0)
  | PAdded rest | PStartEach rest _ => (2, List.length rest, 0, 1)
  | PAddedAll _ | PStartAll => (3, 0, 0, 0)
  | PFailed => (4, 0, 0, 0)
  | PInfo _ k => (5, k_left k, 2, 0)
  | PCount _ _ k => (5, k_left k, 1, 0)
  | PCap _ _ ep last _ k => (5, k_left k, 0, S (Z.to_nat (last + 1 - ep)))
  | PRemovedAll _ => (6, 0, 0, 0)
  | PRemoved rest _ _ => (7, List.length rest, 0, 0)
  | PList | PStartList => (8, 0, 0, 0)
  end%nat.
Definition goes (g : ago) (x : rk) : Prop := below (rank (snd g)) x.
Lemma goes_then os g x : goes g x -> goes (obs_then os g) x. Proof. destruct g as [[d os'] p]. exact (fun H => H). Qed.
Lemma goes_trans g x y : goes g x -> below x y -> goes g y. Proof. apply below_trans. Qed.
Ltac low := cbn; cbn [List.length]; lia.
Lemma goes_update me t rest : forall new d, goes (update_loop me t rest new d) (5, List.length rest, 0, 1)%nat.
Proof.
  induction rest as [|n rest IH]; intros new d; cbn [update_loop]; [destruct new; low|].
  assert (G : goes (update_loop me t rest new d) (5, List.length (n :: rest), 0, 1)%nat) by (eapply goes_trans; [apply IH|low]).
  destruct (dmem _ _ _); [exact G|]. destruct (n =? me); [exact G|low].
Qed.
Lemma goes_start me t rest : forall d, goes (start_loop me t rest d) (5, List.length rest, 0, 1)%nat.
Proof.
  induction rest as [|n rest IH]; intros d; cbn [start_loop]; [low|].
  assert (G : goes (start_loop me t rest d) (5, List.length (n :: rest), 0, 1)%nat) by (eapply goes_trans; [apply IH|low]). destruct (n =? me); [exact G|low].
Qed.
Lemma goes_loaded me t k nodes d : goes (loaded me t k nodes d) (5, k_left k, 0, 1)%nat.
Proof. destruct k; [low|apply goes_update|apply goes_start]. Qed.
Lemma goes_caps me t n root ep last got k d : goes (caps me t n root ep last got k d) (5, k_left k, 0, S (S (Z.to_nat (last + 1 - ep))))%nat.
Proof. unfold caps. destruct (Z.leb_spec ep last); [low|]. eapply goes_trans; [apply goes_loaded|low]. Qed.
Lemma goes_caps_next me t n root ep last got k d : ep <= last -> goes (caps me t n root (ep + 1) last got k d) (5, k_left k, 0, S (Z.to_nat (last + 1 - ep)))%nat.
Proof. intros L. unfold caps. destruct (Z.leb_spec (ep + 1) last); [low|]. eapply goes_trans; [apply goes_loaded|low]. Qed.
Lemma goes_remove me t rest all l d : goes (remove me t rest all l d) (7, List.length rest, 0, 0)%nat.
Proof.
  destruct rest as [|k rest]; cbn [remove]; [destruct all; [eapply goes_trans; [apply goes_update|low]|low]|]. destruct (dmem _ _ _); low.
Qed.
Lemma goes_each t rest size d : goes (start_each t rest size d) (2, List.length rest, 0, 1)%nat.
Proof. unfold start_each. destruct (Nat.eqb _ _); [destruct rest|]; low. Qed.
(** a suspension at an end point is at one in range *)
Definition sound (p : apc) : Prop := match p with PCap _ _ ep last _ _ => ep <= last | _ => True end.
Lemma goes_resume me t p a d g : sound p -> aresume me t p a d = Some g -> goes g (rank p).
Proof.
  intros SO. destruct p, a; try discriminate; cbn [aresume]; intros H; try (injection H as <-); try match goal with |- goes (obs_then _ _) _ => apply goes_then end; cbn [rank];
    try solve [low | apply goes_remove | apply goes_each | eapply goes_trans; [apply goes_remove|low] | eapply goes_trans; [apply goes_update|low] | eapply goes_trans; [apply goes_start|low] | eapply goes_trans; [apply goes_each|low] | eapply goes_trans; [apply goes_caps|low]].
  - unfold with_info. destruct (new_node cls) as [c|e]; [|low]. cbn [put]. destruct (supports c 96); [low|]. apply goes_then. eapply goes_trans; [apply goes_loaded|low].
  - unfold with_cap. destruct (new_node cls) as [c|e]; [|low]. cbn [put]. apply goes_then. apply goes_caps_next. exact SO.
  - destruct new; low.
  - destruct rest; low.
  - destruct (int_is _ _); [destruct (int_is _ _)|]; injection H as <-; low.
Qed.

(** ** What an open task waits for *)
Definition expects (p : apc) (o : aobs) : bool :=
  match p, o with
  | PList, OQuery _ QNodes | PStartList, OQuery _ QNodes | PFailed, OQuery _ QFailed | PInfo _ _, OQuery _ (QInfo _) | PCount _ _ _, OQuery _ (QCount _) | PCap _ _ _ _ _ _, OQuery _ (QCap _ _) => true
  | PRemoved _ _ _, OTell _ _ | PRemovedAll _, OTell _ _ | PAddedAll _, OTell _ _ | PAdded _, OTell _ _ | PStartAll, OTell _ _ | PStartEach _ _, OTell _ _ | PChip, OTell _ _
  | PStatus, OTell _ _ | PRemStatus _, OTell _ _ | PZero, OTell _ _ | PZeros, OTell _ _ | POffer, OTell _ _ => true
  | PHandle, OHandle _ _ _ _ => true
  | _, _ => false
  end.
Definition ends_asking (t : nat) (g : ago) : Prop :=
  sound (snd g) /\ ((exists r, snd g = PEnd r) \/ exists pre o, snd (fst g) = pre ++ [o] /\ question t o = true /\ expects (snd g) o = true).
Lemma asking_then t os g : ends_asking t g -> ends_asking t (obs_then os g).
Proof.
  destruct g as [[d os'] p]. intros [S [E|(pre & o & E & Q & X)]]; (split; [exact S|]); [left; exact E|right]. cbn [fst snd obs_then] in *. exists (os ++ pre), o. rewrite E, app_assoc. auto.
Qed.
Ltac askq pre := right; pre; eexists; split; [reflexivity|]; split; [cbn; apply Nat.eqb_refl|reflexivity].
Ltac ask1 := split; [try exact I; try (cbn; lia)|]; first [left; eexists; reflexivity|askq ltac:(exists [])|askq ltac:(eexists [_])].
Lemma asking_update me t rest : forall new d, ends_asking t (update_loop me t rest new d).
Proof. induction rest as [|n rest IH]; intros new d; cbn [update_loop]; [destruct new; ask1|]. destruct (dmem _ _ _); [apply IH|]. destruct (n =? me); [apply IH|ask1]. Qed.
Lemma asking_start me t rest : forall d, ends_asking t (start_loop me t rest d).
Proof. induction rest as [|n rest IH]; intros d; cbn [start_loop]; [ask1|]. destruct (n =? me); [apply IH|ask1]. Qed.
Lemma asking_loaded me t k nodes d : ends_asking t (loaded me t k nodes d).
Proof. destruct k; [ask1|apply asking_update|apply asking_start]. Qed.
Lemma asking_caps me t n root ep last got k d : ends_asking t (caps me t n root ep last got k d).
Proof. unfold caps. destruct (Z.leb_spec ep last); [ask1|apply asking_loaded]. Qed.
Lemma asking_remove me t rest all l d : ends_asking t (remove me t rest all l d).
Proof. destruct rest as [|k rest]; cbn [remove]; [destruct all; [apply asking_update|ask1]|]. destruct (dmem _ _ _); ask1. Qed.
Lemma asking_each t rest size d : ends_asking t (start_each t rest size d).
Proof. unfold start_each. destruct (Nat.eqb _ _); [destruct rest|]; ask1. Qed.
Lemma asking_resume me t p a d g : aresume me t p a d = Some g -> ends_asking t g.
Proof.
  destruct p, a; try discriminate; cbn [aresume]; intros H; try (injection H as <-);
    try match goal with |- ends_asking _ (obs_then _ _) => apply asking_then end;
    try solve [apply asking_update | apply asking_remove | apply asking_caps | apply asking_start | apply asking_each | ask1].
  - unfold with_info. destruct (new_node cls) as [c|e]; [|ask1]. cbn [put]. destruct (supports c 96); [ask1|]. apply asking_then, asking_loaded.
  - unfold with_cap. destruct (new_node cls) as [c|e]; [|ask1]. cbn [put]. apply asking_then, asking_caps.
  - destruct new; ask1.
  - destruct rest; ask1.
  - destruct (int_is _ _); [destruct (int_is _ _)|]; injection H as <-; ask1.
Qed.
Lemma asking_begin me t c d : ends_asking t (astart me t c d).
Proof.
  destruct c; cbn [astart]; try ask1.
  - destruct (n =? me); ask1.
  - unfold start_message. destruct (match ep with Some _ => _ | None => _ end); [ask1|]. destruct (root =? me); ask1.
  - unfold start_unhandled. destruct (is_msg _ _); [|ask1]. destruct (is_msg _ _); [ask1|]. destruct (is_msg _ _); [ask1|]. destruct (getattr m "command"); ask1.
Qed.
Lemma suits_expects p o a : expects p o = true -> suits o a -> forall me t d, exists g, aresume me t p a d = Some g.
Proof.
  intros E S me t d. destruct o as [| t' q | | t' w | t' o m f | | |]; try (destruct p; discriminate E).
  - destruct p; try discriminate E; destruct q; try discriminate E; destruct a; try contradiction; cbn [aresume]; eauto.
  - destruct a; try (destruct w; contradiction). destruct p; try discriminate E; cbn [aresume]; eauto. destruct (int_is _ _); [destruct (int_is _ _)|]; eauto.
  - destruct a; try contradiction. destruct p; try discriminate E. cbn [aresume]. eauto.
Qed.

(** ** Every task of a run *)
Definition waiting (t : nat) (p : apc) (tr : list aobs) : Prop :=
  exists a o b, tr = a ++ o :: b /\ question t o = true /\ expects p o = true /\ forall o', In o' b -> question t o' = false.
Definition known (t : nat) (p : apc) (tr : list aobs) : Prop :=
  sound p /\ ((exists r, p = PEnd r /\ In (ODone t r) tr) \/ (forall r, p <> PEnd r) /\ waiting t p tr).
Lemma asks_mine t o t' : mine t o -> t' <> t -> question t' o = false.
Proof. intros M D. destruct o; try reflexivity; cbn in M |- *; subst; apply Nat.eqb_neq; congruence. Qed.
Lemma known_more t p tr os : known t p tr -> (forall o, In o os -> question t o = false) -> known t p (tr ++ os).
Proof.
  intros [S [(r & E & J)|(N & a & o & b & -> & Q & X & B)]] H; (split; [exact S|]); [left; exists r; split; [exact E|apply in_or_app; left; exact J]|right].
  split; [exact N|]. exists a, o, (b ++ os). split; [now rewrite <- app_assoc|]. repeat split; auto. intros o' J. apply in_app_iff in J as [J|J]; auto.
Qed.
Lemma known_turn t p tr pre d os : shape t (d, os, p) -> ends_asking t (d, os, p) -> known t p (tr ++ pre ++ os).
Proof.
  intros (_ & _ & C) [S [(r & E)|(p1 & o & E & Q & X)]]; cbn [fst snd] in *; (split; [exact S|]).
  - left. exists r. split; [exact E|]. rewrite !in_app_iff. right. right. apply C. exact E.
  - right. split; [intros r ->; destruct o as [| |  | | | | |]; discriminate X|]. exists (tr ++ pre ++ p1), o, []. rewrite E, !app_assoc. repeat split; auto. intros o' [].
Qed.
Lemma known_exec es s tr : aexec app0 es s tr -> forall t c p, nth_error (a_tasks s) t = Some (mkAT c p) -> known t p tr.
Proof.
  induction 1 as [|es s tr e s' os X IH ST]; [intros [|t] c p H; discriminate H|]. intros t c p T. apply astep_case in ST.
  destruct ST as [z|c' d os p' E|u c' q a d os p' N' E|u c' q e N' NE]; cbn [a_tasks] in T.
  - apply known_more; [eapply IH; exact T|intros o []].
  - rewrite nth_snoc' in T. set (n := length (a_tasks s)) in *. pose proof (shape_begin (a_me s) n c' (tabs_of s)) as SH. pose proof (asking_begin (a_me s) n c' (tabs_of s)) as AS.
    pose proof (by_begin (a_me s) n c' (tabs_of s)) as BY. rewrite E in SH, AS, BY. destruct (Nat.eqb_spec t n) as [->|D].
    + injection T as <- <-. exact (known_turn n p' tr [OCalled n c'] d os SH AS).
    + apply known_more; [eapply IH; exact T|]. intros o [<-|J]; [reflexivity|]. unfold by_t in BY. rewrite Forall_forall in BY. exact (asks_mine n o t (BY o J) D).
  - rewrite (nth_upd' _ _ _ _ N') in T. pose proof (shape_resume _ _ _ _ _ _ E) as SH. pose proof (asking_resume _ _ _ _ _ _ E) as AS. pose proof (by_resume _ _ _ _ _ _ E) as BY.
    destruct (Nat.eqb_spec t u) as [->|D].
    + injection T as <- <-. exact (known_turn u p' tr [] d os SH AS).
    + apply known_more; [eapply IH; exact T|]. intros o J. unfold by_t in BY. rewrite Forall_forall in BY. exact (asks_mine u o t (BY o J) D).
  - rewrite (nth_upd' _ _ _ _ N') in T. destruct (Nat.eqb_spec t u) as [->|D].
    + injection T as <- <-. split; [exact I|]. left. eexists. split; [reflexivity|]. apply in_or_app. right. left. reflexivity.
    + apply known_more; [eapply IH; exact T|]. intros o [<-|[]]. reflexivity.
Qed.

(** ** One step of a run *)
Lemma step_rank s e s' os t c p : astep s e = Some (s', os) -> nth_error (a_tasks s) t = Some (mkAT c p) -> sound p ->
  exists p', nth_error (a_tasks s') t = Some (mkAT c p') /\ sound p' /\ ((p' = p /\ forall r, e <> EAnswer t r) \/ below (rank p') (rank p)).
Proof.
  intros ST T SO. apply astep_case in ST. destruct ST as [z|c' d os p' E|u c' q a d os p' N' E|u c' q e N' NE]; cbn [a_tasks].
  - exists p. split; [exact T|]. split; [exact SO|]. left. split; [reflexivity|discriminate].
  - exists p. split; [rewrite nth_error_app1; [exact T|apply nth_error_Some; congruence]|]. split; [exact SO|]. left. split; [reflexivity|discriminate].
  - rewrite (nth_upd' _ _ _ _ N'). destruct (Nat.eqb_spec t u) as [->|D].
    + rewrite N' in T. injection T as -> ->. exists p'. split; [reflexivity|]. split; [exact (proj1 (asking_resume _ _ _ _ _ _ E))|]. right. exact (goes_resume _ _ _ _ _ _ SO E).
    + exists p. split; [exact T|]. split; [exact SO|]. left. split; [reflexivity|]. intros r Q. injection Q as Q _. congruence.
  - rewrite (nth_upd' _ _ _ _ N'). destruct (Nat.eqb_spec t u) as [->|D].
    + rewrite N' in T. injection T as -> ->. exists (PEnd (Err e)). split; [reflexivity|]. split; [exact I|]. right. destruct p; cbn; try lia. destruct (NE r eq_refl).
    + exists p. split; [exact T|]. split; [exact SO|]. left. split; [reflexivity|]. intros r Q. injection Q as Q _. congruence.
Qed.
Lemma exec_rank s es s' os t c : aexec s es s' os -> forall p, nth_error (a_tasks s) t = Some (mkAT c p) -> sound p ->
  exists p', nth_error (a_tasks s') t = Some (mkAT c p') /\ sound p' /\ ((p' = p /\ forall r, ~ In (EAnswer t r) es) \/ below (rank p') (rank p)).
Proof.
  induction 1 as [|es s1 tr e s' os X IH ST]; intros p T SO.
  - exists p. split; [exact T|]. split; [exact SO|]. left. split; [reflexivity|intros r []].
  - destruct (IH p T SO) as (p1 & T1 & S1 & D1). destruct (step_rank _ _ _ _ _ _ _ ST T1 S1) as (p2 & T2 & S2 & D2). exists p2. split; [exact T2|]. split; [exact S2|].
    destruct D2 as [[-> D2]|D2]; [destruct D1 as [[-> D1]|D1]; [left; split; [reflexivity|]; intros r J; apply in_app_iff in J as [J|[J|[]]]; [exact (D1 r J)|exact (D2 r J)]|right; exact D1]|].
    right. destruct D1 as [[-> D1]|D1]; [exact D2|exact (below_trans _ _ _ D2 D1)].
Qed.

(** ** Runs without end *)
Lemma until_exec f es os es0 tr : runs f es os -> aexec app0 es0 (f 0%nat) tr -> forall n, exists e, aexec app0 e (f n) (tr ++ until os n).
Proof.
  intros R X n. induction n as [|n (e & IH)]; [exists es0; unfold until; cbn; rewrite app_nil_r; exact X|].
  exists (e ++ es n). unfold until in *. rewrite seq_S, flat_map_app, app_assoc. cbn [flat_map plus]. rewrite app_nil_r. exact (aexec_app _ _ _ _ _ _ _ IH (R n)).
Qed.
Lemma pieces f es os t c : runs f es os -> forall n p, nth_error (a_tasks (f n)) t = Some (mkAT c p) -> sound p -> forall k, exists p', nth_error (a_tasks (f (n + k)%nat)) t = Some (mkAT c p') /\ sound p' /\
  ((p' = p /\ forall m r, (n <= m < n + k)%nat -> ~ In (EAnswer t r) (es m)) \/ below (rank p') (rank p)).
Proof.
  intros R n p T SO k. induction k as [|k (p1 & T1 & S1 & D1)].
  - exists p. rewrite Nat.add_0_r. split; [exact T|]. split; [exact SO|]. left. split; [reflexivity|intros m r H; lia].
  - destruct (exec_rank _ _ _ _ t c (R (n + k)%nat) p1 T1 S1) as (p2 & T2 & S2 & D2). exists p2. rewrite Nat.add_succ_r. split; [exact T2|]. split; [exact S2|].
    destruct D2 as [[-> D2]|D2]; [destruct D1 as [[-> D1]|D1]; [left; split; [reflexivity|]; intros m r H; destruct (Nat.eq_dec m (n + k)) as [->|]; [apply D2|apply D1; lia]|right; exact D1]|].
    right. destruct D1 as [[-> D1]|D1]; [exact D2|exact (below_trans _ _ _ D2 D1)].
Qed.
Lemma task_of es s tr t c : aexec app0 es s tr -> In (OCalled t c) tr -> exists c' p, nth_error (a_tasks s) t = Some (mkAT c' p).
Proof.
  intros X. revert c. induction X as [|es s tr e s' os X IH ST]; intros c J; [destruct J|]. apply in_app_iff in J as [J|J].
  - destruct (IH c J) as (c' & p & T). destruct (step_rank _ _ _ _ t c' p ST T) as (p' & T' & _); [exact (proj1 (known_exec _ _ _ X _ _ _ T))|eauto].
  - apply astep_case in ST. destruct ST as [z|c' d os p' E|u c' q a d os p' N' E|u c' q e N' NE]; cbn [a_tasks].
    + destruct J.
    + destruct J as [J|J]; [injection J as <- <-; exists c', p'; rewrite nth_snoc', Nat.eqb_refl; reflexivity|].
      pose proof (by_begin (a_me s) (length (a_tasks s)) c' (tabs_of s)) as BY. rewrite E in BY. unfold by_t in BY. rewrite Forall_forall in BY. destruct (BY _ J).
    + pose proof (by_resume _ _ _ _ _ _ E) as BY. unfold by_t in BY. rewrite Forall_forall in BY. destruct (BY _ J).
    + destruct J as [J|[]]. discriminate J.
Qed.
Lemma ends es0 tr f es os t c : aexec app0 es0 (f 0%nat) tr -> In (OCalled t c) tr -> runs f es os -> served t tr es os -> exists n, over t (tr ++ until os n).
Proof.
  intros X J R SV. destruct (task_of _ _ _ _ _ X J) as (c0 & p & T). pose proof (proj1 (known_exec _ _ _ X _ _ _ T)) as SO. clear J.
  enough (G : forall x n p, rank p = x -> nth_error (a_tasks (f n)) t = Some (mkAT c0 p) -> exists n, over t (tr ++ until os n)) by (exact (G _ 0%nat p eq_refl T)).
  clear T SO p. intros x. induction x as [x IH] using (well_founded_induction below_wf). intros n p RX T. destruct (until_exec _ _ _ _ _ R X n) as (e & XN).
  destruct (known_exec _ _ _ XN _ _ _ T) as [SO [(r & -> & J)|(NE & _)]]; [exists n, r; exact J|].
  assert (NO : ~ over t (tr ++ until os n)).
  { intros [r J]. destruct (done_exec _ _ _ _ XN t r J) as (c' & T'). rewrite T in T'. injection T' as _ T'. exact (NE r T'). }
  destruct (SV n NO) as (m & r & L & IN). destruct (pieces _ _ _ t c0 R n p T SO (S (m - n))) as (p' & T' & S' & D). destruct D as [[-> D]|D].
  - destruct (D m r ltac:(lia) IN).
  - subst x. exact (IH (rank p') D _ p' eq_refl T').
Qed.
(** ** A task that has not ended can be answered *)
Lemma ready es s tr t c : aexec app0 es s tr -> In (OCalled t c) tr -> ~ over t tr -> exists o, waits_for t tr o /\
  forall r, match r with Ok a => suits o a | Err _ => True end -> exists s' os, astep s (EAnswer t r) = Some (s', os).
Proof.
  intros X J NO. destruct (task_of _ _ _ _ _ X J) as (c0 & p & T). destruct (known_exec _ _ _ X _ _ _ T) as [SO [(r & -> & K)|(NE & a & o & b & E & Q & EX & B)]]; [destruct NO; exists r; exact K|].
  exists o. split; [split; [exact NO|exists a, b; auto]|]. intros r RR. cbn [astep]. rewrite T. cbn [at_pc]. destruct r as [an|er].
  - destruct (suits_expects p o an EX RR (a_me s) t (a_tab s, a_objs s)) as ([[d os] p'] & G).
    destruct p; try (rewrite G; eauto). destruct (NE r eq_refl).
  - destruct p; cbn; eauto. destruct (NE r eq_refl).
Qed.
