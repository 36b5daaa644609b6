(** Proofs about interviews: which classes are visited, what is signalled, and what the flag means. *)
From Coq Require Import String ZArith List Bool Lia.
From Verif Require Import Py Schema Registry Codec SpecBits SpecDecode Waiter Conn ConnLemmas NodeReq SpecNodeReq NodeReqProofs NodeFresh ClassProofs InterviewM SpecInterview InterviewProofs InterviewData.
Import ListNotations.
Open Scope list_scope.
Open Scope string_scope.
Open Scope list_scope.
Open Scope Z_scope.

(** ** stacks *)
Inductive tailok : bool -> list iframe -> option (list Z) -> Prop :=
| TO_end b : tailok b [] None
| TO_node rest : tailok false [FNode rest] (Some rest)
| TO_wrap id : tailok true [FWrap id] None
| TO_both id rest : tailok true [FWrap id; FNode rest] (Some rest).
Definition stackok (fs : list iframe) (o : option (list Z)) : Prop :=
  match fs with FVersion _ :: l => tailok true l o | FBody _ :: l => tailok false l o | _ => False end.
Definition vis (t : nat) (os : list iobs) : list Z := flat_map (fun o => match o with OVisit t' id => if Nat.eqb t' t then [id] else [] | _ => [] end) os.
Lemma vis_app t a b : vis t (a ++ b) = vis t a ++ vis t b. Proof. apply flat_map_app. Qed.

Lemma ask_out t id s s' os x : ask_version t id s = (s', os, x) -> vis t os = [] /\ match x with XWait _ fs => fs = [FVersion id] | XRes r => r = Ok (VVer 0) end.
Proof.
  unfold ask_version. destruct (id =? 0); [intros H; injection H as <- <- <-; auto|]. rewrite version_new. unfold irequest. cbn [nstep]. destruct (add_session _ _) as [f w].
  intros H. injection H as <- <- <-. auto.
Qed.
Lemma body_out t id v s s' os x : start_body t id v s = (s', os, x) -> vis t os = [] /\ match x with XWait _ fs => fs = [FBody id] | XRes r => exists b, r = Ok (VRet b) end.
Proof.
  unfold start_body. destruct (v =? 0); [intros H; injection H as <- <- <-; eauto|]. cbv zeta. destruct (body_of id) as [g r a| |] eqn:B.
  - rewrite (own_new _ _ _ _ B). unfold irequest. cbn [nstep]. destruct (add_session _ _) as [f w]. intros H. injection H as <- <- <-. auto.
  - cbn [body_end]. intros H. injection H as <- <- <-. eauto.
  - intros H. injection H as <- <- <-. auto.
Qed.
Lemma class_out t id s s' os x : start_class t id s = (s', os, x) -> vis t os = [id] /\
  match x with XWait _ fs => fs = [FVersion id; FWrap id] \/ fs = [FBody id] | XRes r => exists b, r = Ok (VRet b) end.
Proof.
  unfold start_class. cbv zeta. assert (V1 : forall o, vis t (OVisit t id :: o) = id :: vis t o) by (intros o; cbn; rewrite Nat.eqb_refl; reflexivity).
  destruct (k_version (i_cls s id) =? 0).
  - destruct (ask_version t id s) as [[s1 os1] y] eqn:A. apply ask_out in A as [A1 A2]. destruct y as [w fs|r].
    + subst fs. cbn [iunder inote app]. intros H. injection H as <- <- <-. rewrite V1, A1. auto.
    + subst r. destruct (start_body t id 0 s1) as [[s2 os2] z] eqn:B. apply body_out in B as [B1 B2]. cbn [inote app]. intros H. injection H as <- <- <-. rewrite V1, vis_app, A1, B1. destruct z; auto.
  - destruct (start_body t id _ s) as [[s2 os2] z] eqn:B. apply body_out in B as [B1 B2]. cbn [inote app]. intros H. injection H as <- <- <-. rewrite V1, B1. destruct z; auto.
Qed.
Lemma visit_out t rest : forall s s' os x, visit t rest s = (s', os, x) ->
  match x with XWait _ fs => exists l, stackok fs (Some l) /\ vis t os ++ l = rest | XRes r => r = Ok VNode /\ vis t os = rest end.
Proof.
  induction rest as [|id rest IH]; intros s s' os x H; [injection H as <- <- <-; auto|]. cbn [visit] in H.
  destruct (start_class t id s) as [[s1 os1] y] eqn:C. apply class_out in C as [C1 C2]. destruct y as [w fs|r].
  - injection H as <- <- <-. exists rest. rewrite C1. split; [|reflexivity]. destruct C2 as [->| ->]; constructor.
  - destruct C2 as [b ->]. destruct (visit t rest s1) as [[s2 os2] z] eqn:V. specialize (IH _ _ _ _ V). cbn [inote] in H. injection H as <- <- <-. rewrite vis_app, C1. destruct z as [w fs|r].
    + destruct IH as (l & L1 & L2). exists l. split; [exact L1|]. cbn. rewrite L2. reflexivity.
    + destruct IH as [-> <-]. auto.
Qed.
(** what a coroutine stack does with a result; [b] tells whether a version is expected *)
Definition fits (b : bool) (r : res ival) : Prop := match r with Ok (VVer _) => b = true | Ok (VRet _) => b = false | Ok VNode => False | Err e => e <> ETimeout end.
Lemma unwind_out t b fs o r s s' os x : tailok b fs o -> fits b r -> unwind t fs r s = (s', os, x) ->
  match o, x with
  | None, XWait _ fs' => stackok fs' None /\ vis t os = []
  | None, XRes r' => vis t os = [] /\ forall e, r' = Err e -> r = Err e
  | Some rest, XWait _ fs' => exists l, stackok fs' (Some l) /\ vis t os ++ l = rest
  | Some rest, XRes (Ok _) => vis t os = rest
  | Some rest, XRes (Err e) => vis t os = [] /\ r = Err e
  end.
Proof.
  intros TO F. destruct TO as [b|rest|id|id rest].
  - intros H. injection H as <- <- <-. auto.
  - cbn [unwind after_frame]. destruct r as [v|e].
    + destruct (visit t rest s) as [[s1 os1] y] eqn:V. apply visit_out in V. destruct y as [w g|r']; intros H; cbn [inote] in H; injection H as <- <- <-; rewrite ?app_nil_r.
      * destruct V as (l & L1 & L2). exists l. auto.
      * destruct V as [-> ->]. reflexivity.
    + assert (E : after_frame t (FNode rest) (Err e) s = (s, [], XRes (Err e))) by (destruct e; cbn in F |- *; congruence). cbn [after_frame] in E. rewrite E. cbn. intros H. injection H as <- <- <-. auto.
  - cbn [unwind after_frame]. destruct r as [[v|v|]|e]; try (cbn in F; first [contradiction|discriminate]).
    + destruct (start_body t id v s) as [[s1 os1] y] eqn:B. apply body_out in B as [B1 B2]. destruct y as [w g|r']; intros H; cbn [inote] in H; injection H as <- <- <-; rewrite ?app_nil_r.
      * subst g. split; [constructor|exact B1].
      * destruct B2 as [b' ->]. split; [exact B1|discriminate].
    + cbn. intros H. injection H as <- <- <-. auto.
  - cbn [unwind]. cbn [after_frame]. destruct r as [[v|v|]|e]; try (cbn in F; first [contradiction|discriminate]).
    + destruct (start_body t id v s) as [[s1 os1] y] eqn:B. apply body_out in B as [B1 B2]. destruct y as [w g|r'].
      * intros H. injection H as <- <- <-. subst g. exists rest. rewrite B1. split; [constructor|reflexivity].
      * destruct B2 as [b' ->]. destruct (visit t rest s1) as [[s2 os2] y] eqn:V. apply visit_out in V. destruct y as [w g|r']; intros H; cbn [inote] in H; injection H as <- <- <-; rewrite ?app_nil_r, vis_app, B1.
        -- destruct V as (l & L1 & L2). exists l. auto.
        -- destruct V as [-> ->]. reflexivity.
    + assert (E : after_frame t (FNode rest) (Err e) s = (s, [], XRes (Err e))) by (destruct e; cbn in F |- *; congruence). cbn [inote app]. cbn [after_frame] in E. rewrite E. cbn. intros H. injection H as <- <- <-. auto.
Qed.

Lemma no_bool s e n osn u b : nstep s e = Some (n, osn) -> ~ In (NRet u (RBool b)) osn.
Proof.
  intros H J. destruct e as [dt|c|t v|m|t|t|t]; cbn [nstep] in H.
  - destruct (0 <=? dt); [|discriminate]. injection H as <- <-. destruct J.
  - destruct c as [h tmo|h tmo].
    + destruct (add_session h (n_w s)) as [f w]. injection H as <- <-. destruct J as [J|[]]; discriminate.
    + injection H as <- <-. destruct J as [J|[]]; discriminate.
  - destruct (nth_error (n_tasks s) t) as [[[h tmo|h tmo] []]|]; try discriminate. unfold n_finish in H. destruct v as [[]|e]; injection H as <- <-; cbn in J; intuition discriminate.
  - destruct m; try discriminate. destruct (message_received _ _) as [w r]. injection H as <- <-. destruct J as [J|[]]; discriminate.
  - destruct (nth_error (n_tasks s) t) as [[c [|h f dl []|h f|r]]|]; try discriminate. destruct (dl <=? n_now s); [|discriminate]. injection H as <- <-. destruct J.
  - destruct (nth_error (n_tasks s) t) as [[c [|h f dl ph|h f|r]]|]; try discriminate.
    + unfold n_resume, n_finish in H. destruct (nth_error (w_futs (n_w s)) f) as [[|v|]|], ph; try discriminate; injection H as <- <-; cbn in J; intuition discriminate.
    + unfold n_finish in H. injection H as <- <-. cbn in J; intuition discriminate.
  - destruct (nth_error (n_tasks s) t) as [[c [|h f dl ph|h f|r]]|]; try discriminate; unfold n_finish in H; injection H as <- <-; cbn in J; intuition discriminate.
Qed.
(** ** what comes out of an answered request *)
Definition vtop (fs : list iframe) : bool := match fs with FVersion _ :: _ => true | _ => false end.
Lemma sound_typed cls : sound cls -> own_typed cls.
Proof.
  intros S id g r a BO b v J E. destruct (body_copies _ _ _ _ _ BO J) as (w & sz & CP & T). destruct (S _ _ _ _ CP) as [N|[z Z]]; [congruence|]. exists sz, z. split; [exact T|congruence].
Qed.
Lemma own_due id g r a : body_of id = BCopy g r a -> map a_name a = due (s_hid r).
Proof.
  unfold body_of. destruct (id =? 134); [intros E; injection E as <- <- <-; reflexivity|]. destruct (id =? 94); [intros E; injection E as <- <- <-; reflexivity|].
  destruct (id =? 114); [intros E; injection E as <- <- <-; reflexivity|]. destruct (_ || _); discriminate.
Qed.
Lemma short_fields a m zs : ints a -> fields a m zs -> (List.length zs < List.length a)%nat -> exists f, In f (map a_name a) /\ getattr m f = VNone.
Proof.
  intros [_ I] F L. destruct (nth_error a (List.length zs)) as [b|] eqn:E; [|apply nth_error_None in E; lia]. destruct (I b (nth_error_In _ _ E)) as [sz T].
  exists (a_name b). split; [apply in_map; eapply nth_error_In; exact E|]. rewrite (F _ _ _ E T). replace (nth_error zs (List.length zs)) with (@None Z); [reflexivity|]. symmetry. apply nth_error_None. lia.
Qed.
Lemma first_fits fs r s s1 hd r1 : first fs r s = (s1, hd, XRes r1) -> (match fs with FVersion _ :: _ => True | FBody id :: _ => ~ bare id | _ => False end) -> (forall b, r <> RBool b) ->
  (forall m, r = RMsg m -> report_ok fs m /\ exists q, top fs q (hid m)) -> own_typed (i_cls s) ->
  fits (vtop fs) r1 /\ forall e, r1 = Err e -> r = RExc e \/ (e = EType /\ exists m, r = RMsg m /\ incomplete m).
Proof.
  intros F B NB RM OT. destruct fs as [|[id|id|id|rest] fs]; try contradiction; cbn [first vtop] in *.
  - unfold got_version in F. destruct r as [b|m|e]; [destruct (NB b eq_refl)| |].
    + destruct (RM m eq_refl) as [[zs FM] (q & _ & H)]. pose proof (FM 1%nat _ 1%nat eq_refl eq_refl) as F1. cbn [a_name] in F1. rewrite F1 in F. destruct (nth_error zs 1) as [z|] eqn:Z; cbn [to_int] in F; injection F as <- <- <-; cbn.
      * split; [reflexivity|discriminate].
      * split; [discriminate|]. intros e E. injection E as <-. right. split; [reflexivity|]. exists m. split; [reflexivity|]. exists "commandClassVersion". rewrite H. split; [left; reflexivity|exact F1].
    + destruct e; injection F as <- <- <-; cbn; (split; [discriminate || reflexivity|intros e E; first [discriminate|injection E as <-; auto]]).
  - destruct (body_of id) as [g rp a| |] eqn:BO; try (destruct B; unfold bare; rewrite BO; exact I). destruct r as [b|m|e]; [destruct (NB b eq_refl)| |].
    + destruct (RM m eq_refl) as [RO (q & T)]. cbn [top] in T. destruct T as (g' & r' & a' & BO' & _ & H). rewrite BO in BO'. injection BO' as <- <- <-. destruct (RO g rp a BO) as [zs FM].
      destruct (report_first _ _ _ _ _ _ _ F) as (_ & _ & d & x & CO & _ & K). destruct (own_ints _ _ _ _ BO) as [IL _].
      destruct (copy_fields a m zs IL FM a 0%nat _ d x (fun i => eq_refl) (OT id g rp a BO) CO) as (_ & _ & _ & [->|[-> LT]] & _).
      * destruct K as [(_ & _ & -> & _)|(y & E & _)]; [|discriminate]. split; [reflexivity|discriminate].
      * destruct K as [(E & _)|(y & E & _ & _ & R)]; [discriminate|]. injection E as <-. rewrite R by discriminate. split; [discriminate|]. intros e E. injection E as <-. right. split; [reflexivity|]. exists m. split; [reflexivity|].
        unfold incomplete. rewrite H, <- (own_due _ _ _ _ BO). exact (short_fields a m zs IL FM LT).
    + cbn in F. destruct e; injection F as <- <- <-; cbn; (split; [discriminate || reflexivity|intros e E; first [discriminate|injection E as <-; auto]]).
Qed.

(** ** the course of a task *)
Lemma cause_more t e es tr es' x : cause t e es tr -> cause t e (es ++ es') (tr ++ x).
Proof.
  intros [(n & n' & u & q & A & B)|[A|(E & n & n' & u & q & m & A & B & C)]].
  - left. exists n, n', u, q. split; apply in_or_app; auto.
  - right. left. apply in_or_app. auto.
  - right. right. split; [exact E|]. exists n, n', u, q, m. split; [apply in_or_app; auto|]. split; [apply in_or_app; auto|exact C].
Qed.
Definition course (ids : list Z) (es : list ievent) (tr : itrace) (t : nat) (c : icall) (p : ipc) : Prop :=
  match p with
  | ISusp _ fs => match c with CNode => exists l, stackok fs (Some l) /\ visits t tr ++ l = ids | _ => stackok fs None end
  | IEnd (Ok _) => match c with CNode => visits t tr = ids | _ => True end
  | IEnd (Err e) => (e <> ETimeout /\ cause t e es tr) /\ match c with CNode => exists l, visits t tr ++ l = ids | _ => True end
  end.
Record tour (ids : list Z) (es : list ievent) (s : istate) (tr : itrace) : Prop := mkTour {
  t_ids : i_ids s = ids;
  t_task : forall t p, nth_error (i_tasks s) t = Some p -> exists c n, In (n, OCall t c) tr /\ (forall c' n', In (n', OCall t c') tr -> c' = c) /\ course ids es tr t c p;
  t_call : forall n t c, In (n, OCall t c) tr -> (t < List.length (i_tasks s))%nat;
  t_new : forall t, (List.length (i_tasks s) <= t)%nat -> visits t tr = [];
  t_done : forall n t r, In (n, ODone t r) tr -> nth_error (i_tasks s) t = Some (IEnd r) }.
Lemma visits_app t a b : visits t (a ++ b) = visits t a ++ visits t b. Proof. apply flat_map_app. Qed.
Lemma visits_vis t T os : visits t (istamp T os) = vis t os.
Proof. induction os as [|o os IH]; [reflexivity|]. cbn. destruct o; try exact IH. destruct (Nat.eqb t0 t); cbn; [f_equal|]; exact IH. Qed.
Lemma vis_nets t os : vis t (map ONet os) = []. Proof. induction os; auto. Qed.
Lemma vis_benign t t' os : Forall (benign t) os -> t' <> t -> vis t' os = [].
Proof. induction 1 as [|o os B _ IH]; intros N; [reflexivity|]. cbn. destruct o; try (apply IH, N); cbn in B. subst. destruct (Nat.eqb_spec t t'); [congruence|]. apply IH, N. Qed.
Lemma vis_calm t t' s1 s2 os x : calm t s1 s2 os x -> t' <> t -> vis t' (os ++ fin t x) = [].
Proof.
  intros C N. rewrite vis_app. replace (vis t' (fin t x)) with (@nil Z) by (destruct x; reflexivity). rewrite app_nil_r.
  destruct (c_net _ _ _ _ _ C) as [(_ & B & _)|(os0 & q & h & fs & -> & B & _)]; [exact (vis_benign _ _ _ B N)|]. rewrite vis_app, (vis_benign _ _ _ B N). reflexivity.
Qed.
Lemma course_other ids es es' tr tr' t c p : visits t tr' = [] -> course ids es tr t c p -> course ids (es ++ es') (tr ++ tr') t c p.
Proof.
  intros V. unfold course. rewrite visits_app, V, app_nil_r. destruct p as [w fs|[v|e]]; auto. intros [[A B] C]. split; [split; [exact A|apply cause_more, B]|exact C].
Qed.
Lemma calls_calm t s1 s2 os x n T t' c : calm t s1 s2 os x -> ~ In (n, OCall t' c) (istamp T (os ++ fin t x)).
Proof.
  intros C J. apply in_istamp in J as [_ J]. apply in_app_or in J as [J|J]; [|destruct x; cbn in J; intuition discriminate].
  assert (BN : forall os0, Forall (benign t) os0 -> ~ In (OCall t' c) os0) by (intros os0 F K; rewrite Forall_forall in F; exact (F _ K)).
  destruct (c_net _ _ _ _ _ C) as [(_ & B & _)|(os0 & q & h & fs & -> & B & _)]; [exact (BN _ B J)|]. apply in_app_or in J as [J|J]; [exact (BN _ B J)|]. cbn in J. intuition discriminate.
Qed.
Lemma done_calm t s1 s2 os x T n t' r : calm t s1 s2 os x -> In (n, ODone t' r) (istamp T (os ++ fin t x)) -> t' = t /\ x = XRes r.
Proof.
  intros C J. apply in_istamp in J as [_ J]. apply in_app_or in J as [J|J]; [|destruct x; cbn in J; [destruct J|]; destruct J as [J|[]]; injection J as <- <-; auto].
  assert (BN : forall os0, Forall (benign t) os0 -> ~ In (ODone t' r) os0) by (intros os0 F K; rewrite Forall_forall in F; exact (F _ K)).
  destruct (c_net _ _ _ _ _ C) as [(_ & B & _)|(os0 & q & h & fs & -> & B & _)]; [destruct (BN _ B J)|]. apply in_app_or in J as [J|J]; [destruct (BN _ B J)|]. cbn in J. intuition discriminate.
Qed.
Lemma tour_step ids es s tr e s' os : tour ids es s tr -> linked s tr -> istep s e = Some (s', os) -> from_wire (tr ++ istamp (n_now (i_net s)) os) -> own_typed (i_cls s) ->
  tour ids (es ++ [e]) s' (tr ++ istamp (n_now (i_net s)) os).
Proof.
  intros TR L H W OT. destruct (step_cases s tr e s' os L H) as [(e' & n & osn & -> & ST & -> & -> & NW)|(n & osn & t & s1 & hd & s2 & os2 & x & TN & C & -> & ->)].
  - constructor; cbn [netted i_ids i_tasks].
    + apply (t_ids _ _ _ _ TR).
    + intros t p Q. destruct (t_task _ _ _ _ TR t p Q) as (c & n0 & A & B & D). exists c, n0. split; [apply in_or_app; auto|]. split.
      * intros c' n' J. apply in_app_or in J as [J|J]; [exact (B _ _ J)|]. apply in_istamp in J as [_ J]. apply in_map_iff in J as (? & K & _). discriminate.
      * apply course_other; [rewrite visits_vis; apply vis_nets|exact D].
    + intros n0 t c J. apply in_app_or in J as [J|J]; [exact (t_call _ _ _ _ TR _ _ _ J)|]. apply in_istamp in J as [_ J]. apply in_map_iff in J as (? & K & _). discriminate.
    + intros t N. rewrite visits_app, (t_new _ _ _ _ TR t N), visits_vis. apply vis_nets.
    + intros n0 t r J. apply in_app_or in J as [J|J]; [exact (t_done _ _ _ _ TR _ _ _ J)|]. apply in_istamp in J as [_ J]. apply in_map_iff in J as (? & K & _). discriminate.
  - set (T := n_now (i_net s)) in *. pose proof (turn_len _ _ _ _ _ _ _ _ TN) as TL.
    assert (VO : forall t', t' <> t -> visits t' (istamp T (map ONet osn ++ hd ++ os2 ++ fin t x)) = []).
    { intros t' N. rewrite visits_vis, !vis_app, vis_nets, <- vis_app, (vis_calm _ _ _ _ _ _ C N), app_nil_r. cbn.
      inversion TN as [e' n' osn' u r t0 fs s1' hd' r1 E1 ST R Q F Z|c E1|t0 r id' fs s1' hd' r1 E1 Q F]; subst; try reflexivity.
      - destruct (first_res fs r (netted s n)) as (s0 & hd0 & r0 & F0 & _ & _ & _ & F4). rewrite F in F0. injection F0 as <- <- <-. destruct F4 as [->|[id ->]]; reflexivity.
      - unfold body_end in F. destruct r as [rv|y]; [injection F as _ <- _; reflexivity|]. destruct y; injection F as _ <- _; reflexivity. }
    assert (HD : (exists c, e = ICall c /\ t = List.length (i_tasks s) /\ hd = [OCall t c]) \/ (t < List.length (i_tasks s))%nat /\ (forall t' c', ~ In (OCall t' c') hd) /\ vis t hd = []).
    { inversion TN as [e' n' osn' u r t0 fs s1' hd' r1 E1 ST R Q F Z|c E1|t0 r id' fs s1' hd' r1 E1 Q F]; subst; [|left; eauto|].
      - right. apply nth_lt in Q. split; [exact Q|]. destruct (first_res fs r (netted s n)) as (s0 & hd0 & r0 & F0 & _ & _ & _ & F4). rewrite F in F0. injection F0 as <- <- <-. destruct F4 as [->|[id ->]]; cbn; intuition discriminate.
      - right. apply nth_lt in Q. split; [exact Q|]. unfold body_end in F. destruct r as [rv|y]; [injection F as _ <- _; cbn; intuition discriminate|]. destruct y; injection F as _ <- _; cbn; intuition discriminate. }
    assert (ND : forall t' r, ~ In (ODone t' r) hd).
    { intros t' r J. destruct (turn_net _ _ _ _ _ _ _ _ TN) as (_ & _ & _ & _). inversion TN as [e' n' osn' u r0 t0 fs s1' hd' r1 E1 ST R Q F Z|c E1|t0 r0 id' fs s1' hd' r1 E1 Q F]; subst.
      - destruct (first_res fs r0 (netted s n)) as (s0 & hd0 & r2 & F0 & _ & _ & _ & F4). rewrite F in F0. injection F0 as <- <- <-. destruct F4 as [->|[id ->]]; cbn in J; intuition discriminate.
      - cbn in J. intuition discriminate.
      - unfold body_end in F. destruct r0 as [rv|y]; [injection F as _ <- _; cbn in J; intuition discriminate|]. destruct y; injection F as _ <- _; cbn in J; intuition discriminate. }
    assert (VT : vis t (map ONet osn ++ hd ++ os2 ++ fin t x) = vis t os2).
    { rewrite !vis_app, vis_nets. replace (vis t (fin t x)) with (@nil Z) by (destruct x; reflexivity). rewrite app_nil_r. destruct HD as [(c & _ & _ & ->)|(_ & _ & ->)]; reflexivity. }
    assert (CALLS : forall n0 t' c', In (n0, OCall t' c') (tr ++ istamp T (map ONet osn ++ hd ++ os2 ++ fin t x)) -> In (n0, OCall t' c') tr \/ (n0 = T /\ In (OCall t' c') hd)).
    { intros n0 t' c' J. apply in_app_or in J as [J|J]; [auto|]. rewrite stamp_app, stamp_app in J. apply in_app_or in J as [J|J]; [apply in_istamp in J as [_ J]; apply in_map_iff in J as (? & K & _); discriminate|].
      apply in_app_or in J as [J|J]; [apply in_istamp in J; auto|]. destruct (calls_calm _ _ _ _ _ _ _ _ _ C J). }
    constructor; cbn [i_ids i_tasks].
    + apply (t_ids _ _ _ _ TR).
    + intros t' p Q. destruct (put_at _ _ _ _ _ Q TL) as [[-> ->]|[N Q']].
      2:{ destruct (t_task _ _ _ _ TR t' p Q') as (c & n0 & A & B & D). exists c, n0. split; [apply in_or_app; auto|]. split; [|apply course_other; [apply VO, N|exact D]].
          intros c' n' J. destruct (CALLS _ _ _ J) as [K|[_ K]]; [exact (B _ _ K)|]. destruct HD as [(c0 & _ & _ & ->)|(_ & NC & _)]; [|destruct (NC _ _ K)]. destruct K as [K|[]]. congruence. }
      assert (CA : forall c, (forall y, x = XRes (Err y) -> y <> ETimeout /\ cause t y (es ++ [e]) (tr ++ istamp T (map ONet osn ++ hd ++ os2 ++ fin t x))) ->
         match c with
         | CNode => match x with XWait _ fs => exists l, stackok fs (Some l) /\ visits t tr ++ vis t os2 ++ l = ids | XRes (Ok _) => visits t tr ++ vis t os2 = ids | XRes (Err _) => exists l, visits t tr ++ vis t os2 ++ l = ids end
         | _ => match x with XWait _ fs => stackok fs None | _ => True end
         end -> course ids (es ++ [e]) (tr ++ istamp T (map ONet osn ++ hd ++ os2 ++ fin t x)) t c (pc_of x)).
      { intros c K J. unfold course. rewrite visits_app, visits_vis, VT. destruct x as [w fs|[v|y]]; cbn [pc_of].
        - destruct c; auto. destruct J as (l & J1 & J2). exists l. rewrite <- app_assoc. auto.
        - destruct c; auto.
        - split; [exact (K y eq_refl)|]. destruct c; auto. destruct J as (l & J). exists l. rewrite <- app_assoc. exact J. }
      assert (OLD : forall w fs b l r1, nth_error (i_tasks s) t = Some (ISusp w fs) -> (forall o, stackok fs o = tailok b l o) -> fits b r1 -> unwind t l r1 s1 = (s2, os2, x) -> (forall t' c', ~ In (OCall t' c') hd) ->
         (forall y, r1 = Err y -> cause t y (es ++ [e]) (tr ++ istamp T (map ONet osn ++ hd ++ os2 ++ fin t x))) ->
         exists c n0, In (n0, OCall t c) (tr ++ istamp T (map ONet osn ++ hd ++ os2 ++ fin t x)) /\ (forall c' n', In (n', OCall t c') (tr ++ istamp T (map ONet osn ++ hd ++ os2 ++ fin t x)) -> c' = c) /\
           course ids (es ++ [e]) (tr ++ istamp T (map ONet osn ++ hd ++ os2 ++ fin t x)) t c (pc_of x)).
      { intros w fs b l r1 Q' SK FI U NC CS. destruct (t_task _ _ _ _ TR t _ Q') as (c & n0 & A & B & D). exists c, n0. split; [apply in_or_app; auto|]. split.
        { intros c' n' J. destruct (CALLS _ _ _ J) as [K|[_ K]]; [exact (B _ _ K)|]. destruct (NC _ _ K). }
        assert (FT : forall y, r1 = Err y -> y <> ETimeout) by (intros y ->; exact FI).
        apply CA.
        - intros y ->. assert (E : r1 = Err y); [|split; [exact (FT y E)|exact (CS y E)]].
          cbn [course] in D. destruct c; [destruct D as (l' & D1 & D2)| |]; try rewrite SK in D; try rewrite SK in D1.
          + exact (proj2 (unwind_out _ _ _ _ _ _ _ _ _ D1 FI U)).
          + apply (proj2 (unwind_out _ _ _ _ _ _ _ _ _ D FI U)). reflexivity.
          + apply (proj2 (unwind_out _ _ _ _ _ _ _ _ _ D FI U)). reflexivity.
        - cbn [course] in D. destruct c; [destruct D as (l' & D1 & <-)| |]; try rewrite SK in D; try rewrite SK in D1.
          + pose proof (unwind_out _ _ _ _ _ _ _ _ _ D1 FI U) as O. destruct x as [w' g|[v|y]].
            * destruct O as (l2 & O1 & <-). eauto.
            * rewrite O. reflexivity.
            * destruct O as [-> _]. exists l'. reflexivity.
          + pose proof (unwind_out _ _ _ _ _ _ _ _ _ D FI U) as O. destruct x as [w' g|[v|y]]; auto. apply O.
          + pose proof (unwind_out _ _ _ _ _ _ _ _ _ D FI U) as O. destruct x as [w' g|[v|y]]; auto. apply O. }
      inversion TN as [e' n' osn' u r t0 fs s1' hd' r1 E1 ST R Q' F Z|c E1|t0 r id' fs s1' hd' r1 E1 Q' F]; subst.
      * pose proof (returned_in _ _ _ R) as RI. assert (FF : fits (vtop fs) r1 /\ forall y, r1 = Err y -> r = RExc y \/ (y = EType /\ exists m, r = RMsg m /\ incomplete m)).
        { eapply first_fits; [exact F|exact Z|intros b ->; exact (no_bool _ _ _ _ _ _ ST RI)| |exact OT]. intros m ->. split; [eapply reply_ok; eassumption|].
          destruct (reply _ _ _ _ _ _ _ _ _ L ST RI Q') as (q & h & TP & <- & _). eauto. }
        destruct FF as [FI FC]. eapply (OLD (WReq u) fs (vtop fs) (tl fs) r1 Q'); [|exact FI|eassumption| |].
        -- intros o. destruct fs as [|[] fs]; try contradiction; reflexivity.
        -- destruct HD as [(c0 & ? & _)|(_ & NC & _)]; [discriminate|exact NC].
        -- intros y E. destruct (l_susp _ _ L _ _ _ Q') as (p & q & h & n0 & _ & _ & AS & _). assert (IR : In (T, ONet (NRet u r)) (tr ++ istamp T (map ONet osn ++ hd ++ os2 ++ fin t x))).
           { apply in_or_app. right. apply in_istamp. split; [reflexivity|]. apply in_or_app. left. apply in_map. exact RI. }
           destruct (FC y E) as [->|[-> (m & -> & IM)]].
           ++ left. exists n0, T, u, q. split; [apply in_or_app; auto|exact IR].
           ++ right. right. split; [reflexivity|]. exists n0, T, u, q, m. split; [apply in_or_app; auto|]. split; [exact IR|exact IM].
      * exists c, T. split; [apply in_or_app; right; apply in_istamp; split; [reflexivity|]; apply in_or_app; right; apply in_or_app; left; left; reflexivity|]. split.
        { intros c' n' J. destruct (CALLS _ _ _ J) as [K|[_ K]]; [pose proof (t_call _ _ _ _ TR _ _ _ K); lia|]. destruct K as [K|[]]. congruence. }
        pose proof (t_new _ _ _ _ TR _ TL) as VN. apply CA; rewrite ?VN; cbn [app].
        -- intros y ->. destruct c as [|id|id]; match goal with G : _ = (s2, os2, XRes (Err y)) |- _ => first [apply visit_out in G as [G _]; discriminate|apply class_out in G as [_ [? G]]; discriminate|apply ask_out in G as [_ G]; discriminate] end.
        -- destruct c as [|id|id]; match goal with G : _ = (s2, os2, x) |- _ => first [apply visit_out in G|apply class_out in G as [_ G]|apply ask_out in G as [_ G]]; rename G into O end.
           ++ rewrite (t_ids _ _ _ _ TR) in O. destruct x as [w g|[v|y]]; [exact O|apply O|destruct O; discriminate].
           ++ destruct x as [w g|y]; auto. destruct O as [->| ->]; constructor.
           ++ destruct x as [w g|y]; auto. subst. constructor.
      * assert (FF : fits false r1 /\ forall y, r1 = Err y -> r = Err y).
        { unfold body_end in F. destruct r as [rv|y]; [injection F as _ _ <-; split; [reflexivity|discriminate]|]. destruct y; injection F as _ _ <-; split; try reflexivity; try discriminate; intros y E; injection E as <-; reflexivity. }
        destruct FF as [FI FC]. eapply (OLD WEnv (FBody id' :: fs) false fs r1 Q'); [reflexivity|exact FI|eassumption| |].
        -- destruct HD as [(c0 & ? & _)|(_ & NC & _)]; [discriminate|exact NC].
        -- intros y E. right. left. apply in_or_app. right. left. rewrite (FC y E). reflexivity.
    + intros n0 t' c J. destruct (CALLS _ _ _ J) as [K|[_ K]].
      * pose proof (t_call _ _ _ _ TR _ _ _ K). unfold put. destruct (t <? List.length (i_tasks s))%nat; [rewrite upd_length; lia|rewrite app_length; cbn; lia].
      * destruct HD as [(c0 & _ & E & ->)|(_ & NC & _)]; [|destruct (NC _ _ K)]. destruct K as [K|[]]. injection K as <- <-. unfold put. destruct (Nat.ltb_spec t (List.length (i_tasks s))); [lia|rewrite app_length; cbn; lia].
    + intros t' N. assert (LP : (List.length (i_tasks s) <= List.length (put t (pc_of x) (i_tasks s)))%nat /\ (t < List.length (put t (pc_of x) (i_tasks s)))%nat).
      { unfold put. destruct (Nat.ltb_spec t (List.length (i_tasks s))); [rewrite upd_length; lia|rewrite app_length; cbn; lia]. }
      rewrite visits_app, (t_new _ _ _ _ TR t') by lia. apply VO. lia.
    + intros n0 t' r J. apply in_app_or in J as [J|J].
      * pose proof (t_done _ _ _ _ TR _ _ _ J) as Q. apply other_put; [exact Q|]. intros ->. inversion TN as [e' n' osn' u r0 t0 fs s1' hd' r1 E1 ST R Q' F Z|c E1|t0 r0 id' fs s1' hd' r1 E1 Q' F]; subst; try congruence. apply nth_lt in Q. lia.
      * rewrite stamp_app, stamp_app in J. apply in_app_or in J as [J|J]; [apply in_istamp in J as [_ J]; apply in_map_iff in J as (? & K & _); discriminate|].
        apply in_app_or in J as [J|J]; [apply in_istamp in J as [_ J]; destruct (ND _ _ J)|]. destruct (done_calm _ _ _ _ _ _ _ _ _ C J) as [-> ->]. apply at_put, TL.
Qed.
Lemma tour_exec ids cls es s tr : iexec (istate0 ids cls) es s tr -> from_wire tr -> sound cls -> tour ids es s tr.
Proof.
  intros X. induction X as [|es s tr e s' os X IH ST]; intros W SO.
  - constructor; cbn; try (intros [|?]; discriminate); try (intros ? ? ? []); reflexivity.
  - eapply tour_step; [exact (IH (wire_pre _ _ W) SO)|eapply linked_exec; exact X|exact ST|exact W|]. eapply attr_exec; [exact X|exact (wire_pre _ _ W)|apply sound_typed, SO].
Qed.
Lemma visits_exec ids cls es s tr n t : iexec (istate0 ids cls) es s tr -> from_wire tr -> sound cls -> In (n, OCall t CNode) tr ->
  (exists rest, visits t tr ++ rest = ids) /\ forall n' r, In (n', ODone t r) tr -> match r with Ok _ => visits t tr = ids | Err e => e <> ETimeout /\ cause t e es tr end.
Proof.
  intros X W SO J. pose proof (tour_exec _ _ _ _ _ X W SO) as TR. pose proof (t_call _ _ _ _ TR _ _ _ J) as LT.
  destruct (nth_error (i_tasks s) t) as [p|] eqn:Q; [|apply nth_error_None in Q; lia]. destruct (t_task _ _ _ _ TR t p Q) as (c & n0 & A & B & D). pose proof (B _ _ J) as <-. split.
  - destruct p as [w fs|[v|e]]; cbn [course] in D.
    + destruct D as (l & _ & D). eauto.
    + exists []. rewrite app_nil_r. exact D.
    + apply D.
  - intros n' r K. apply (t_done _ _ _ _ TR) in K. rewrite Q in K. injection K as ->. destruct r as [v|e]; cbn [course] in D; [exact D|apply D].
Qed.

(** ** signals *)
Lemma signal_step s tr e s' os id : linked s tr -> istep s e = Some (s', os) -> from_wire (tr ++ istamp (n_now (i_net s)) os) -> own_typed (i_cls s) -> ~ In (OUpdated id) os ->
  k_version (i_cls s' id) = k_version (i_cls s id) /\ (k_interviewed (i_cls s' id) = true -> k_interviewed (i_cls s id) = true) /\
  (k_attrs (i_cls s' id) = k_attrs (i_cls s id) \/ exists u m, In (ONet (NRet u (RMsg m))) os /\ incomplete m /\ exists w f sz, copies id w f sz /\ In f (due (hid m))).
Proof.
  intros L H W OT NU. destruct (step_cases s tr e s' os L H) as [(e' & n & osn & -> & ST & -> & -> & NW)|(n & osn & t & s1 & hd & s2 & os2 & x & TN & C & -> & ->)]; [cbn; auto|].
  assert (N1 : ~ In (OUpdated id) hd) by (intros J; apply NU; apply in_or_app; right; apply in_or_app; auto). assert (N2 : ~ In (OUpdated id) os2) by (intros J; apply NU; apply in_or_app; right; apply in_or_app; right; apply in_or_app; auto).
  cbn [i_cls]. destruct (c_data _ _ _ _ _ C id) as [-> ->]. assert (FL : k_interviewed (i_cls s2 id) = true -> k_interviewed (i_cls s1 id) = true) by (intros K; destruct (c_flag _ _ _ _ _ C id K) as [K'|[K' _]]; [exact K'|contradiction]).
  assert (Y : (k_version (i_cls s1 id) = k_version (i_cls s id) /\ (k_interviewed (i_cls s1 id) = true -> k_interviewed (i_cls s id) = true) /\ k_attrs (i_cls s1 id) = k_attrs (i_cls s id)) ->
     k_version (i_cls s1 id) = k_version (i_cls s id) /\ (k_interviewed (i_cls s2 id) = true -> k_interviewed (i_cls s id) = true) /\
     (k_attrs (i_cls s1 id) = k_attrs (i_cls s id) \/ exists u m, In (ONet (NRet u (RMsg m))) (map ONet osn ++ hd ++ os2 ++ fin t x) /\ incomplete m /\ exists w f sz, copies id w f sz /\ In f (due (hid m)))).
  { intros (A & B & D). auto. }
  inversion TN as [e' n' osn' u r t0 fs s1' hd' r1 E1 ST R Q F Z|c E1|t0 r id' fs s1' hd' r1 E1 Q F]; subst; [|apply Y; cbn; auto|].
  - destruct fs as [|[id'|id'|id'|rest] fs]; try contradiction; cbn [first] in F.
    + apply Y. unfold got_version in F. destruct r as [b|m|y]; [injection F as <- _ _; cbn; auto| |destruct y; injection F as <- _ _; cbn; auto].
      destruct (to_int (getattr m "commandClassVersion")); injection F as <- <- _; cbn; auto. destruct (Z.eqb_spec id id') as [->|]; [destruct N1; left; reflexivity|auto].
    + destruct (body_of id') as [g rp a| |] eqn:BO; try (destruct Z; unfold bare; rewrite BO; exact I). destruct r as [b|m|y]; [apply Y; injection F as <- _ _; cbn; auto| |apply Y; destruct y; injection F as <- _ _; cbn; auto].
      destruct (report_first _ _ _ _ _ _ _ F) as (RV & RN & d & x0 & CO & RA & K). cbn [netted i_cls] in *. destruct (Z.eq_dec id id') as [->|NE].
      * split; [apply RV|]. destruct K as [(_ & -> & _)|(y & -> & _ & K & _)]; [destruct N1; left; reflexivity|]. split; [intros G; rewrite <- K; exact (FL G)|]. right. exists u, m.
        pose proof (reply_ok s tr e' n osn u m t (FBody id' :: fs) _ L ST (returned_in _ _ _ R) Q W) as RO. destruct (RO g rp a BO) as [zs FM]. destruct (own_ints _ _ _ _ BO) as [IL NN].
        destruct (reply _ _ _ _ _ _ _ _ _ L ST (returned_in _ _ _ R) Q) as (q & h & TP & HH & _). cbn [top] in TP. destruct TP as (g' & r' & a' & BO' & _ & HE). rewrite BO in BO'. injection BO' as <- <- <-.
        destruct (copy_fields a m zs IL FM a 0%nat _ d (Err y) (fun i => eq_refl) (OT id' g rp a BO) CO) as (_ & _ & _ & [D|[_ LT]] & _); [discriminate|].
        split; [apply in_or_app; left; apply in_map; exact (returned_in _ _ _ R)|]. unfold incomplete. rewrite HH, HE, <- (own_due _ _ _ _ BO). split; [exact (short_fields a m zs IL FM LT)|].
        destruct a as [|b a]; [congruence|]. destruct (body_copies _ _ _ _ b BO (or_introl eq_refl)) as (w & sz & CP & _). exists w, (a_name b), sz. split; [exact CP|left; reflexivity].
      * apply Y. split; [apply RV|]. split; [|apply RN, NE]. destruct K as [(_ & _ & _ & K)|(y & _ & _ & K & _)]; rewrite K; auto. destruct (Z.eqb_spec id id'); [contradiction|auto].
  - apply Y. destruct (body_end_data _ _ _ _ _ _ F id) as [-> ->]. split; [reflexivity|]. split; [|reflexivity]. unfold body_end in F. destruct r as [rv|y].
    + injection F as <- <- _. destruct rv as [[]|]; cbn; auto; (destruct (Z.eqb_spec id id') as [->|]; [destruct N1; left; reflexivity|auto]).
    + destruct y; injection F as <- _ _; auto.
Qed.

(** ** the flag *)
Definition flagged (cls : Z -> kcls) : Prop := forall id w f sz, k_interviewed (cls id) = true -> copies id w f sz -> aget f (k_attrs (cls id)) <> None.
Lemma flag_step s tr e s' os : linked s tr -> istep s e = Some (s', os) -> from_wire (tr ++ istamp (n_now (i_net s)) os) -> own_typed (i_cls s) -> flagged (i_cls s) -> flagged (i_cls s').
Proof.
  intros L H W OT FG id w f sz K CP. destruct (attr_step s tr e s' os L H W OT) as [_ AS].
  destruct (k_interviewed (i_cls s id)) eqn:OLD.
  { rewrite (AS id w f sz CP). pose proof (FG id w f sz OLD CP) as P. generalize (values f (new w s tr os)) as l. intros l. induction l as [|z l IH] using rev_ind; [exact P|]. rewrite map_app; cbn [map]; rewrite last_last. discriminate. }
  clear AS. destruct (copies_body _ _ _ _ CP) as (g & rp & a & i & b & BO & _ & NA & NM & NT).
  destruct (step_cases s tr e s' os L H) as [(e' & n & osn & -> & ST & -> & -> & NW)|(n & osn & t & s1 & hd & s2 & os2 & x & TN & C & -> & ->)]; [cbn in K; congruence|].
  cbn [i_cls] in K |- *. destruct (c_flag _ _ _ _ _ C id K) as [K1|[_ B]]; [|unfold bare in B; rewrite BO in B; destruct B]. destruct (c_data _ _ _ _ _ C id) as [_ ->].
  inversion TN as [e' n' osn' u r t0 fs s1' hd' r1 E1 ST R Q F Z|c E1|t0 r id' fs s1' hd' r1 E1 Q F]; subst; [|cbn in K1; congruence|].
  - destruct fs as [|[id'|id'|id'|rest] fs]; try contradiction; cbn [first] in F.
    + exfalso. unfold got_version in F. destruct r as [b0|m|y]; [injection F as <- _ _; cbn in K1; congruence| |destruct y; injection F as <- _ _; cbn in K1; congruence].
      destruct (to_int (getattr m "commandClassVersion")); injection F as <- _ _; cbn in K1; try congruence. destruct (Z.eqb_spec id id') as [->|]; cbn in K1; congruence.
    + destruct (body_of id') as [g' rp' a'| |] eqn:BO'; try (destruct Z; unfold bare; rewrite BO'; exact I). destruct r as [b0|m|y]; [exfalso; injection F as <- _ _; cbn in K1; congruence| |exfalso; destruct y; injection F as <- _ _; cbn in K1; congruence].
      destruct (report_first _ _ _ _ _ _ _ F) as (_ & _ & d & x0 & CO & RA & D). cbn [netted i_cls] in *.
      destruct D as [(-> & _ & _ & D)|(y & _ & _ & D & _)]; rewrite D in K1; [|congruence]. destruct (Z.eqb_spec id id') as [->|]; [|congruence]. rewrite BO in BO'. injection BO' as <- <- <-.
      pose proof (reply_ok s tr e' n osn u m t (FBody id' :: fs) _ L ST (returned_in _ _ _ R) Q W) as RO. destruct (RO g rp a BO) as [zs FM]. destruct (own_ints _ _ _ _ BO) as [IL NN].
      destruct (copy_fields a m zs IL FM a 0%nat _ d (Ok tt) (fun i => eq_refl) (OT id' g rp a BO) CO) as (_ & AG & _ & _ & LE). destruct (LE eq_refl) as [LE'|]; [|congruence].
      rewrite RA, (AG i b sz NA NT). cbn [Nat.leb]. destruct (nth_error zs i) eqn:E; [discriminate|]. apply nth_error_None in E. assert (i < List.length a)%nat by (apply nth_error_Some; congruence). lia.
  - exfalso. pose proof (l_env _ _ L _ _ Q) as EV. cbn in EV. unfold body_end in F. destruct r as [rv|y].
    + injection F as <- _ _. destruct rv as [[]|]; cbn in K1; try congruence; (destruct (Z.eqb_spec id id') as [->|]; [congruence|cbn in K1; congruence]).
    + destruct y; injection F as <- _ _; congruence.
Qed.
Lemma flag_exec ids cls es s tr : iexec (istate0 ids cls) es s tr -> from_wire tr -> sound cls -> flagged cls -> flagged (i_cls s).
Proof.
  intros X. induction X as [|es s tr e s' os X IH ST]; intros W SO FG; [exact FG|]. eapply flag_step; [eapply linked_exec; exact X|exact ST|exact W| |exact (IH (wire_pre _ _ W) SO FG)].
  eapply attr_exec; [exact X|exact (wire_pre _ _ W)|apply sound_typed, SO].
Qed.

(** ** the order of things *)
Lemma sent_lt es s tr n u r : nexec nstate0 es s tr -> In (n, NSent u r) tr -> (u < List.length (n_tasks s))%nat.
Proof.
  induction 1 as [|es s tr e s' os X IH ST]; intros J; [destruct J|]. destruct (step_tasks _ _ _ _ ST) as (_ & LN & _). apply in_app_or in J as [J|J]; [specialize (IH J); lia|].
  unfold nstamp in J. apply in_map_iff in J as (o & E & J). injection E as <- ->. enough ((u < List.length (n_tasks s))%nat) by lia. clear X IH LN.
  destruct e as [dt|c|t v|m|t|t|t]; cbn [nstep] in ST.
  - destruct (0 <=? dt); [|discriminate]. injection ST as <- <-. destruct J.
  - destruct c as [h tmo|h tmo].
    + destruct (add_session h (n_w s)) as [f w]. injection ST as <- <-. destruct J as [J|[]]; discriminate.
    + injection ST as <- <-. destruct J as [J|[]]; discriminate.
  - destruct (nth_error (n_tasks s) t) as [[[h tmo|h tmo] []]|] eqn:E; try discriminate. apply nth_lt in E. unfold n_finish in ST. assert (t = u); [|subst; exact E].
    destruct v as [[]|e]; injection ST as <- <-; cbn in J; intuition congruence.
  - destruct m; try discriminate. destruct (message_received _ _) as [w r0]. injection ST as <- <-. destruct J as [J|[]]; discriminate.
  - destruct (nth_error (n_tasks s) t) as [[c [|h f dl []|h f|r0]]|]; try discriminate. destruct (dl <=? n_now s); [|discriminate]. injection ST as <- <-. destruct J.
  - destruct (nth_error (n_tasks s) t) as [[c [|h f dl ph|h f|r0]]|]; try discriminate.
    + unfold n_resume, n_finish in ST. destruct (nth_error (w_futs (n_w s)) f) as [[|v|]|], ph; try discriminate; injection ST as <- <-; cbn in J; intuition discriminate.
    + unfold n_finish in ST. injection ST as <- <-. cbn in J; intuition discriminate.
  - destruct (nth_error (n_tasks s) t) as [[c [|h f dl ph|h f|r0]]|]; try discriminate; unfold n_finish in ST; injection ST as <- <-; cbn in J; intuition discriminate.
Qed.
Lemma msg_alone s e n osn u m : nstep s e = Some (n, osn) -> In (NRet u (RMsg m)) osn -> osn = [NRet u (RMsg m)].
Proof.
  intros H J. destruct e as [dt|c|t v|m0|t|t|t]; cbn [nstep] in H.
  - destruct (0 <=? dt); [|discriminate]. injection H as <- <-. destruct J.
  - destruct c as [h tmo|h tmo].
    + destruct (add_session h (n_w s)) as [f w]. injection H as <- <-. destruct J as [J|[]]; discriminate.
    + injection H as <- <-. destruct J as [J|[]]; discriminate.
  - destruct (nth_error (n_tasks s) t) as [[[h tmo|h tmo] []]|]; try discriminate. unfold n_finish in H. destruct v as [[]|e]; injection H as <- <-; cbn in J; intuition discriminate.
  - destruct m0; try discriminate. destruct (message_received _ _) as [w r]. injection H as <- <-. destruct J as [J|[]]; discriminate.
  - destruct (nth_error (n_tasks s) t) as [[c [|h f dl []|h f|r]]|]; try discriminate. destruct (dl <=? n_now s); [|discriminate]. injection H as <- <-. destruct J.
  - destruct (nth_error (n_tasks s) t) as [[c [|h f dl ph|h f|r]]|]; try discriminate.
    + unfold n_resume, n_finish in H. destruct (nth_error (w_futs (n_w s)) f) as [[|v|]|], ph; try discriminate; injection H as <- <-; cbn in J; try contradiction; destruct J as [J|[]]; try discriminate; rewrite J; reflexivity.
    + unfold n_finish in H. injection H as <- <-. cbn in J; intuition discriminate.
  - destruct (nth_error (n_tasks s) t) as [[c [|h f dl ph|h f|r]]|]; try discriminate; unfold n_finish in H; injection H as <- <-; cbn in J; intuition discriminate.
Qed.
(** a request is sent only after it was asked for *)
Definition asked_first (tr : itrace) : Prop := forall a n t u q b n' r, tr = a ++ (n, OAsk t u q) :: b -> ~ In (n', ONet (NSent u r)) a.
Lemma split_two {A} (x : list A) : forall y a (z : A) b, x ++ y = a ++ z :: b -> (exists c, x = a ++ z :: c) \/ exists c, a = x ++ c /\ y = c ++ z :: b.
Proof.
  induction x as [|v x IH]; intros y a z b E; [right; exists a; auto|]. destruct a as [|w a]; cbn in E; injection E as <- E.
  - left. exists x. reflexivity.
  - destruct (IH _ _ _ _ E) as [[c ->]|(c & -> & ->)]; [left; exists c; reflexivity|right; exists c; auto].
Qed.
Lemma asked_exec ids cls es s tr : iexec (istate0 ids cls) es s tr -> asked_first tr.
Proof.
  induction 1 as [|es s tr e s' os X IH ST]; intros a n t u q b n' r E J; [destruct a; discriminate|].
  destruct (split_two _ _ _ _ _ E) as [[c ->]|(c & -> & E')]; [exact (IH _ _ _ _ _ _ _ _ eq_refl J)|]. clear IH E. pose proof (linked_exec _ _ _ _ _ X) as L.
  assert (NEW : (next s <= u)%nat /\ ~ In (n', ONet (NSent u r)) c).
  { destruct (step_cases s tr e s' os L ST) as [(e' & n0 & osn & -> & SN & -> & -> & NW)|(n0 & osn & t0 & s1 & hd & s2 & os2 & x & TN & C & -> & ->)].
    - exfalso. assert (K : In (n, OAsk t u q) (istamp (n_now (i_net s)) (map ONet osn))) by (rewrite E'; apply in_or_app; right; left; reflexivity).
      apply in_istamp in K as [_ K]. apply in_map_iff in K as (? & K & _). discriminate.
    - destruct (turn_net _ _ _ _ _ _ _ _ TN) as (N1 & PH & _ & NS).
      assert (LE : (next s <= next s1)%nat /\ forall r0, In (NSent u r0) osn -> (u < next s1)%nat).
      { unfold next. rewrite N1. destruct NS as [[-> ->]|(e' & u' & r' & fs & -> & SN & Q & R & _)]; [split; [lia|intros ? []]|]. destruct (step_tasks _ _ _ _ SN) as (_ & LN & _). split; [lia|].
        intros r0 J0. destruct (l_net _ _ L) as [es0 XN]. eapply (sent_lt _ _ _ (n_now (i_net s)) u r0); [econstructor; [exact XN|exact SN]|]. apply in_or_app. right. unfold nstamp. apply in_map. exact J0. }
      assert (K : In (n, OAsk t u q) (istamp (n_now (i_net s)) (map ONet osn ++ hd ++ os2 ++ fin t0 x))) by (rewrite E'; apply in_or_app; right; left; reflexivity).
      assert (NP : forall l, Forall plain l -> ~ In (OAsk t u q) l) by (intros l F I0; rewrite Forall_forall in F; exact (F _ I0)).
      apply in_istamp in K as [_ K]. apply in_app_or in K as [K|K]; [apply in_map_iff in K as (? & K & _); discriminate|]. apply in_app_or in K as [K|K]; [destruct (NP _ PH K)|]. apply in_app_or in K as [K|K]; [|destruct (NP _ (fin_plain t0 x) K)].
      destruct (c_net _ _ _ _ _ C) as [(_ & B & _)|(os0 & q0 & h & fs & -> & B & _ & -> & _)]; [destruct (NP _ (forall_plain _ _ B) K)|].
      apply in_app_or in K as [K|K]; [destruct (NP _ (forall_plain _ _ B) K)|]. destruct K as [K|[K|[]]]; [|discriminate]. injection K as ET EU EQ; subst t u q0. split; [apply LE|]. intros I0.
      assert (I1 : In (n', ONet (NSent (next s1) r)) (istamp (n_now (i_net s)) (map ONet osn ++ hd ++ (os0 ++ [OAsk t0 (next s1) q; ONet (NCall (next s1) (NReq h 3000))]) ++ fin t0 (XWait (WReq (next s1)) fs)))) by (rewrite E'; apply in_or_app; auto).
      apply in_istamp in I1 as [_ I1]. assert (NN : forall l, Forall plain l -> ~ In (ONet (NSent (next s1) r)) l) by (intros l F I2; rewrite Forall_forall in F; exact (F _ I2)).
      apply in_app_or in I1 as [I1|I1]; [apply in_map_iff in I1 as (o & EO & I1); injection EO as ->; pose proof (proj2 LE _ I1); lia|]. apply in_app_or in I1 as [I1|I1]; [exact (NN _ PH I1)|].
      apply in_app_or in I1 as [I1|[]]. apply in_app_or in I1 as [I1|I1]; [exact (NN _ (forall_plain _ _ B) I1)|]. cbn in I1. intuition discriminate. }
  destruct NEW as [NX NI]. apply in_app_or in J as [J|J]; [|exact (NI J)]. destruct (l_net _ _ L) as [es0 XN]. apply in_nets in J. pose proof (sent_lt _ _ _ _ _ _ XN J). unfold next in NX. lia.
Qed.
Lemma nets_split tr : forall A n o B, nets tr = A ++ (n, o) :: B -> exists a b, tr = a ++ (n, ONet o) :: b /\ nets b = B.
Proof.
  induction tr as [|[n0 o0] tr IH]; intros A n o B E; [destruct A; discriminate|].
  assert (C : nets tr = A ++ (n, o) :: B -> exists a b, (n0, o0) :: tr = a ++ (n, ONet o) :: b /\ nets b = B).
  { intros E0. destruct (IH _ _ _ _ E0) as (a & b & -> & <-). exists ((n0, o0) :: a), b. auto. }
  destruct o0; try (apply C, E). cbn in E. destruct A as [|x A]; cbn in E.
  - injection E as <- <- <-. exists [], tr. auto.
  - injection E as <- E. destruct (IH _ _ _ _ E) as (a & b & -> & <-). exists ((n0, ONet o0) :: a), b. auto.
Qed.
Lemma fresh_new ids cls es s tr e s' os w m : iexec (istate0 ids cls) es s tr -> istep s e = Some (s', os) -> In m (new w s tr os) ->
  exists h fs q, top fs q h /\ says q w = true /\ fresh_answer w h m (tr ++ istamp (n_now (i_net s)) os).
Proof.
  intros X ST J. pose proof (linked_exec _ _ _ _ _ X) as L. pose proof (asked_exec _ _ _ _ _ X) as AF. unfold new in J.
  destruct (step_cases s tr e s' os L ST) as [(e' & n & osn & -> & SN & -> & -> & NW)|(n & osn & t & s1 & hd & s2 & os2 & x & TN & C & -> & ->)].
  { rewrite (quiet_answers s tr e' n osn w L SN NW) in J. destruct J. }
  destruct (turn_net _ _ _ _ _ _ _ _ TN) as (_ & _ & _ & [[-> ->]|(e' & u & r & fs & -> & SN & Q & R & _)]); rewrite (turn_answers _ _ _ _ _ _ _ _ _ _ _ w L TN C) in J; [destruct J|]. rewrite R in J.
  destruct r as [b|m0|y]; try destruct J. pose proof (returned_in _ _ _ R) as RI. pose proof (msg_alone _ _ _ _ _ _ SN RI) as ->.
  assert (SM : exists q h n1, In (n1, OAsk t u q) tr /\ top fs q h /\ says q w = true /\ m0 = m).
  { destruct (l_susp _ _ L _ _ _ Q) as (p & q & h & n1 & _ & _ & A & T). exists q, h, n1. split; [exact A|]. split; [exact T|]. rewrite Q in J.
    destruct fs as [|[id|id|id|rest] fs]; cbn [top] in T; try contradiction.
    - destruct T as [-> _]. destruct (says (version_q id) w); [destruct J as [->|[]]; auto|destruct J].
    - destruct T as (g & rp & a & BO & -> & _). rewrite BO in J. destruct (says (VObj (CMsg g) []) w); [destruct J as [->|[]]; auto|destruct J]. }
  destruct SM as (q & h & n1 & A & T & SY & ->). destruct (reply _ _ _ _ _ _ _ _ _ L SN RI Q) as (q' & h' & T' & HH & n0 & RV). destruct (top_one _ _ _ _ _ T T') as [<- <-].
  exists h, fs, q. split; [exact T|]. split; [exact SY|]. rewrite since_sent_app in RV. destruct (sent_ok u (nets tr)) eqn:SO.
  2:{ cbn in RV. destruct RV. }
  apply in_app_or in RV as [RV|RV]; [|destruct RV as [RV|[]]; discriminate]. apply since_split in RV as (a & n2 & b & NE & RV). apply nets_split in NE as (a' & b' & TE & BE). subst b. apply in_nets in RV.
  apply in_split in RV as (c & d & RV). apply in_split in A as (a0 & b0 & AE).
  assert (ORD : exists b1, a' = a0 ++ (n1, OAsk t u q) :: b1).
  { rewrite TE in AE. destruct (split_two _ _ _ _ _ AE) as [[c0 ->]|(c0 & E0 & E1)]; [eauto|]. exfalso. destruct c0 as [|z c0]; [cbn in E1; discriminate|]. cbn in E1. injection E1 as <- E1.
    apply (AF a0 n1 t u q b0 n2 (Ok true)); [rewrite TE; exact AE|]. rewrite E0. apply in_or_app. right. left. reflexivity. }
  destruct ORD as [b1 ->]. rewrite RV in TE. rewrite TE. unfold fresh_answer. exists t, u, q, n1, n2, n0, (n_now (i_net s)), a0, b1, c, d. eexists. split; [exact SY|]. split; [exact HH|].
  cbn [map app istamp]. repeat (rewrite <- app_assoc; cbn [app]). reflexivity.
Qed.
Lemma fresh_more w h m a b : fresh_answer w h m a -> fresh_answer w h m (a ++ b).
Proof.
  intros (t & u & q & n1 & n2 & n3 & n4 & x1 & x2 & x3 & x4 & x5 & A & B & ->). exists t, u, q, n1, n2, n3, n4, x1, x2, x3, x4, (x5 ++ b). split; [exact A|]. split; [exact B|].
  repeat (rewrite <- app_assoc; cbn [app]). reflexivity.
Qed.
Lemma fresh_ask ids cls es s tr w m : iexec (istate0 ids cls) es s tr -> In m (answers w tr) -> exists h fs q, top fs q h /\ says q w = true /\ fresh_answer w h m tr.
Proof.
  induction 1 as [|es s tr e s' os X IH ST]; intros J; [destruct J|]. unfold answers in J. rewrite answers_app in J. apply in_app_or in J as [J|J].
  - destruct (IH J) as (h & fs & q & A & B & D). exists h, fs, q. auto using fresh_more.
  - exact (fresh_new _ _ _ _ _ _ _ _ _ _ X ST J).
Qed.
Lemma version_fresh ids cls es s tr id m : iexec (istate0 ids cls) es s tr -> In m (answers (version_question id) tr) -> fresh_answer (version_question id) (134 * 256 + 20) m tr.
Proof.
  intros X J. destruct (fresh_ask _ _ _ _ _ _ _ X J) as (h & fs & q & T & S & F). apply says_eq in S. destruct fs as [|[i|i|i|rest] fs]; cbn [top] in T; try contradiction.
  - destruct T as [_ ->]. exact F.
  - destruct T as (g & r & a & BO & -> & _). destruct (own_wire _ _ _ _ BO) as (E & _). rewrite E in S. discriminate.
Qed.
Lemma own_fresh ids cls es s tr id w f sz m : iexec (istate0 ids cls) es s tr -> copies id w f sz -> In m (answers w tr) -> exists h, In f (due h) /\ fresh_answer w h m tr.
Proof.
  intros X CP J. destruct (fresh_ask _ _ _ _ _ _ _ X J) as (h & fs & q & T & S & F). apply says_eq in S. destruct (copies_body _ _ _ _ CP) as (g & rp & a & i & b & BO & -> & NA & NM & NT).
  destruct fs as [|[j|j|j|rest] fs]; cbn [top] in T; try contradiction.
  - destruct T as [-> _]. destruct (version_long _ _ _ S).
  - destruct T as (g' & r' & a' & BO' & -> & ->). destruct (own_wire _ _ _ _ BO) as (_ & E & _). destruct (own_wire _ _ _ _ BO') as (W & E' & _). rewrite W in S. injection S as S1 S2. assert (JI : j = id) by congruence.
    rewrite JI, BO in BO'. injection BO' as <- <- <-. exists (s_hid rp). split; [|exact F]. rewrite <- (own_due _ _ _ _ BO), <- NM. apply in_map. eapply nth_error_In. exact NA.
Qed.
Lemma irun_exec ids cls es s tr : irun (istate0 ids cls) es = Some (s, tr) -> iexec (istate0 ids cls) es s tr.
Proof.
  assert (G : forall es s0 s tr es0 tr0, iexec (istate0 ids cls) es0 s0 tr0 -> irun s0 es = Some (s, tr) -> iexec (istate0 ids cls) (es0 ++ es) s (tr0 ++ tr)).
  { clear. induction es as [|e es IH]; intros s0 s tr es0 tr0 X H.
    - injection H as <- <-. rewrite !app_nil_r. exact X.
    - cbn [irun] in H. destruct (istep s0 e) as [[s1 os]|] eqn:E; [|discriminate]. destruct (irun s1 es) as [[s2 tr2]|] eqn:R; [|discriminate]. injection H as <- <-.
      pose proof (IH _ _ _ _ _ (IX_snoc _ _ _ _ _ _ _ X E) R) as Y. rewrite <- !app_assoc in Y. exact Y. }
  intros H. exact (G es _ s tr [] [] (IX_nil _) H).
Qed.
(** ** consequences *)
Lemma wire_own id w f sz m tr : copies id w f sz -> from_wire tr -> (exists h, In f (due h) /\ fresh_answer w h m tr) -> In f (due (hid m)) /\ (getattr m f = VNone \/ exists z, getattr m f = VI false sz z).
Proof.
  intros CP W (h & D & t & u & q & n1 & n2 & n3 & n4 & a & b & c & d & e & S & HH & ->). split; [rewrite HH; exact D|].
  destruct (W n3 m (Ok true)) as (bs & B1 & B2); [apply in_or_app; right; right; apply in_or_app; right; right; apply in_or_app; right; left; reflexivity|].
  destruct (copies_body _ _ _ _ CP) as (g & rp & at' & i & y & BO & -> & NA & NM & NT).
  assert (HR : h = s_hid rp).
  { clear - D BO NA NM. unfold body_of in BO. unfold due in D. assert (IN : In f (map a_name at')) by (rewrite <- NM; apply in_map; eapply nth_error_In; exact NA). clear NA NM.
    destruct (Z.eqb_spec h (134 * 256 + 20)); [exfalso; destruct D as [<-|[]]|].
    { destruct (id =? 134); [injection BO as <- <- <-; cbn in IN; intuition discriminate|]. destruct (id =? 94); [injection BO as <- <- <-; cbn in IN; intuition discriminate|].
      destruct (id =? 114); [injection BO as <- <- <-; cbn in IN; intuition discriminate|]. destruct (_ || _); discriminate. }
    destruct (id =? 134); [injection BO as <- <- <-|destruct (id =? 94); [injection BO as <- <- <-|destruct (id =? 114); [injection BO as <- <- <-|destruct (_ || _); discriminate]]].
    all: destruct (Z.eqb_spec h (134 * 256 + 18)); [try assumption|destruct (Z.eqb_spec h (94 * 256 + 2)); [try assumption|destruct (Z.eqb_spec h (114 * 256 + 5)); [try assumption|destruct D]]].
    all: exfalso; cbn in IN, D; repeat (destruct IN as [<-|IN]; [intuition discriminate|]); destruct IN. }
  subst h. destruct (own_fields _ _ _ _ m bs BO B1 B2 HR) as [zs F]. pose proof (F i y sz NA NT) as V. rewrite NM in V. destruct (nth_error zs i); [right; eauto|left; exact V].
Qed.
Lemma attr_complete ids cls es s tr id w l m : iexec (istate0 ids cls) es s tr -> from_wire tr -> sound cls -> answers w tr = l ++ [m] -> ~ incomplete m ->
  forall f sz, copies id w f sz -> aget f (k_attrs (i_cls s id)) = Some (getattr m f).
Proof.
  intros X W SO A C f sz CP. destruct (attr_exec _ _ _ _ _ X W (sound_typed _ SO)) as [_ AE]. rewrite (AE id w f sz CP), A, values_app, map_app, last_app.
  destruct (wire_own id w f sz m tr CP W) as [D [N|[z V]]]; [eapply own_fresh; [exact X|exact CP|rewrite A; apply in_or_app; right; left; reflexivity]| |].
  - destruct C. exists f. auto.
  - cbn. rewrite V. reflexivity.
Qed.
Lemma last_question_one tr id id' : last_question tr id -> last_question tr id' -> id = id'.
Proof.
  intros (a & n & t & u & q & b & E & Q & N) (a' & n' & t' & u' & q' & b' & E' & Q' & N'). rewrite E in E'.
  destruct (split_two _ _ _ _ _ E') as [[c Y]|([|z c] & Y & Y')].
  - exfalso. assert (B : b' = c ++ (n, OAsk t u q) :: b).
    { rewrite Y in E'. rewrite <- app_assoc in E'. cbn in E'. apply app_inv_head in E'. injection E' as E'. symmetry. exact E'. }
    apply (N' n t u q id); [rewrite B; apply in_or_app; right; left; reflexivity|exact Q].
  - cbn in Y'. injection Y' as _ _ _ -> _. unfold asks_version in *. apply says_eq in Q, Q'. rewrite Q in Q'. injection Q' as ->. reflexivity.
  - exfalso. cbn in Y'. injection Y' as _ Y'. apply (N n' t' u' q' id'); [rewrite Y'; apply in_or_app; right; left; reflexivity|exact Q'].
Qed.
Lemma version_named ids cls es s tr id m : iexec (istate0 ids cls) es s tr -> one_at_a_time tr -> prompt_node tr -> In m (answers (version_question id) tr) -> getattr m "requestedCommandClass" = VI false 1 id.
Proof.
  intros X O P J. destruct (version_fresh _ _ _ _ _ _ _ X J) as (t & u & q & n1 & n2 & n3 & n4 & a & b & c & d & e & S & H & E).
  destruct (P (a ++ (n1, OAsk t u q) :: b ++ (n2, ONet (NSent u (Ok true))) :: c) n3 m (Ok true) (d ++ (n4, ONet (NRet u (RMsg m))) :: e)) as (id' & LQ & G); [rewrite E; repeat (rewrite <- app_assoc; cbn [app]); reflexivity|exact H|].
  assert (LQ' : last_question (a ++ (n1, OAsk t u q) :: b ++ (n2, ONet (NSent u (Ok true))) :: c) id).
  { exists a, n1, t, u, q, (b ++ (n2, ONet (NSent u (Ok true))) :: c). split; [reflexivity|]. split; [exact S|]. intros n5 t2 u2 q2 id2 I.
    apply (O a n1 t u q id (b ++ (n2, ONet (NSent u (Ok true))) :: c ++ (n3, ONet (NRecv m (Ok true))) :: d) n4 (RMsg m) e) with (n2 := n5) (t2 := t2) (u2 := u2); [rewrite E; repeat (rewrite <- app_assoc; cbn [app]); reflexivity|exact S|].
    apply in_app_or in I as [I|[I|I]]; [apply in_or_app; auto|discriminate|]. apply in_or_app. right. right. apply in_or_app. auto. }
  rewrite (last_question_one _ _ _ LQ LQ') in G. exact G.
Qed.
Lemma recv_event ids cls es s tr n m r : iexec (istate0 ids cls) es s tr -> In (n, ONet (NRecv m r)) tr -> In (INet (NEvMessage m)) es.
Proof.
  induction 1 as [|es s tr e s' os X IH ST]; intros J; [destruct J|]. apply in_or_app. apply in_app_or in J as [J|J]; [auto|]. right. left. apply in_istamp in J as [_ J].
  pose proof (linked_exec _ _ _ _ _ X) as L.
  assert (G : forall e' n0 osn, nstep (i_net s) e' = Some (n0, osn) -> In (NRecv m r) osn -> e' = NEvMessage m).
  { intros e' n0 osn H K. destruct e' as [dt|c|t v|m0|t|t|t]; cbn [nstep] in H.
    - destruct (0 <=? dt); [|discriminate]. injection H as <- <-. destruct K.
    - destruct c as [h tmo|h tmo].
      + destruct (add_session h _) as [f w]. injection H as <- <-. destruct K as [K|[]]; discriminate.
      + injection H as <- <-. destruct K as [K|[]]; discriminate.
    - destruct (nth_error _ t) as [[[h tmo|h tmo] []]|]; try discriminate. unfold n_finish in H. destruct v as [[]|e0]; injection H as <- <-; cbn in K; intuition discriminate.
    - destruct m0; try discriminate. destruct (message_received _ _) as [w r0]. injection H as <- <-. destruct K as [K|[]]; congruence.
    - destruct (nth_error _ t) as [[c [|h f dl []|h f|r0]]|]; try discriminate. destruct (dl <=? _); [|discriminate]. injection H as <- <-. destruct K.
    - destruct (nth_error _ t) as [[c [|h f dl ph|h f|r0]]|]; try discriminate.
      + unfold n_resume, n_finish in H. destruct (nth_error _ f) as [[|v|]|], ph; try discriminate; injection H as <- <-; cbn in K; intuition discriminate.
      + unfold n_finish in H. injection H as <- <-. cbn in K; intuition discriminate.
    - destruct (nth_error _ t) as [[c [|h f dl ph|h f|r0]]|]; try discriminate; unfold n_finish in H; injection H as <- <-; cbn in K; intuition discriminate. }
  assert (NP : forall l, Forall plain l -> ~ In (ONet (NRecv m r)) l) by (intros l F I0; rewrite Forall_forall in F; exact (F _ I0)).
  destruct (step_cases s tr e s' os L ST) as [(e' & n0 & osn & -> & SN & -> & -> & NW)|(n0 & osn & t0 & s1 & hd & s2 & os2 & x & TN & C & -> & ->)].
  - apply in_map_iff in J as (o & E & J). injection E as ->. rewrite (G _ _ _ SN J). reflexivity.
  - destruct (turn_net _ _ _ _ _ _ _ _ TN) as (N1 & PH & _ & NS). apply in_app_or in J as [J|J].
    + apply in_map_iff in J as (o & E & J). injection E as ->. destruct NS as [[-> ->]|(e' & u' & r' & fs & -> & SN & _)]; [destruct J|]. rewrite (G _ _ _ SN J). reflexivity.
    + exfalso. apply in_app_or in J as [J|J]; [exact (NP _ PH J)|]. apply in_app_or in J as [J|J]; [|exact (NP _ (fin_plain _ _) J)].
      destruct (c_net _ _ _ _ _ C) as [(_ & B & _)|(os0 & q & h & fs & -> & B & _)]; [exact (NP _ (forall_plain _ _ B) J)|]. apply in_app_or in J as [J|J]; [exact (NP _ (forall_plain _ _ B) J)|]. cbn in J. intuition discriminate.
Qed.
Lemma flag_values ids cls es s tr : iexec (istate0 ids cls) es s tr -> from_wire tr -> sound cls -> flagged cls ->
  forall id w f sz, k_interviewed (i_cls s id) = true -> copies id w f sz -> exists z, aget f (k_attrs (i_cls s id)) = Some (VI false sz z).
Proof.
  intros X W SO FG id w f sz K CP. pose proof (flag_exec _ _ _ _ _ X W SO FG id w f sz K CP) as N. destruct (attr_exec _ _ _ _ _ X W (sound_typed _ SO)) as [TY _].
  destruct (aget f (k_attrs (i_cls s id))) as [v|] eqn:E; [|congruence]. destruct (copies_body _ _ _ _ CP) as (g & r & a & i & b & BO & _ & NA & <- & NT).
  destruct (TY _ _ _ _ BO b v (nth_error_In _ _ NA) E) as (sz' & z & T & ->). rewrite NT in T. injection T as <-. eauto.
Qed.
Lemma signals_exec ids cls es s tr e s' os : iexec (istate0 ids cls) es s tr -> istep s e = Some (s', os) -> from_wire (tr ++ istamp (n_now (i_net s)) os) -> sound cls ->
  forall id, ~ In (OUpdated id) os -> k_version (i_cls s' id) = k_version (i_cls s id) /\ (k_interviewed (i_cls s' id) = true -> k_interviewed (i_cls s id) = true) /\
  (k_attrs (i_cls s' id) = k_attrs (i_cls s id) \/ exists u m, In (ONet (NRet u (RMsg m))) os /\ incomplete m /\ exists w f sz, copies id w f sz /\ In f (due (hid m))).
Proof.
  intros X ST W SO id. apply (signal_step s tr e s' os id); auto; [eapply linked_exec; exact X|]. eapply attr_exec; [exact X|exact (wire_pre _ _ W)|apply sound_typed, SO].
Qed.
Lemma mixed_exec ids cls es s tr id w f sz : iexec (istate0 ids cls) es s tr -> from_wire tr -> sound cls -> copies id w f sz ->
  aget f (k_attrs (i_cls s id)) = last (map (fun z => Some (VI false sz z)) (values f (answers w tr))) (aget f (k_attrs (cls id))) /\
  forall m, In m (answers w tr) -> exists h, In f (due h) /\ fresh_answer w h m tr.
Proof.
  intros X W SO CP. split; [exact (proj2 (attr_exec _ _ _ _ _ X W (sound_typed _ SO)) id w f sz CP)|]. intros m J. eapply own_fresh; eassumption.
Qed.
Lemma one_ask tr : (List.length (filter (fun x => match x with (_, OAsk _ _ _) => true | _ => false end) tr) <= 1)%nat -> one_at_a_time tr.
Proof.
  intros L a n t u q id b n' r c -> A n2 t2 u2 q2 id2 J B. apply in_split in J as (b1 & b2 & ->). revert L. rewrite filter_app, app_length. cbn [filter]. rewrite filter_app. cbn [List.length]. rewrite app_length, filter_app, app_length. cbn [filter List.length]. lia.
Qed.
