(** C118: proofs that handlers of association group information end. *)
From Coq Require Import String ZArith List Bool Lia.
From Verif Require Import Py Schema Registry Codec StorageM GrpInfoM SpecGrpInfo GrpInfoProofs GrpInterview SpecGrpLive.
Import ListNotations.
Open Scope list_scope.
Open Scope string_scope.
Open Scope list_scope.
Open Scope Z_scope.

(** questions still to come *)
Definition ahead (p : apc) : nat := match p with PName _ rest => 1 + 2 * List.length rest | PCommands rest => 2 * List.length rest | PInterview | PEnd _ => 0 end.
Definition isopen (p : apc) : bool := match p with PEnd _ => false | _ => true end.
Definition asked (t : nat) (tr : list aobs) : nat := List.length (sends t tr).
Lemma asked_app t a b : asked t (a ++ b) = (asked t a + asked t b)%nat.
Proof. unfold asked. now rewrite sends_app, app_length. Qed.
Lemma ends_of_app t a b : ends_of t (a ++ b) = ends_of t a ++ ends_of t b.
Proof. unfold ends_of. apply flat_map_app. Qed.
Lemma told_to_app t a b : told_to t (a ++ b) = (told_to t a + told_to t b)%nat.
Proof. unfold told_to. now rewrite filter_app, app_length. Qed.

(** what a piece of a handler does: at most [n] questions, this one and those to come; one question or the end *)
Definition part (t : nat) (n : nat) (p : apc) (o : list aobs) : Prop :=
  (asked t o + ahead p <= n)%nat /\ forallb (own t) o = true /\ (forall t' c, ~ In (OCall t' c) o) /\
  match p with PEnd r => asked t o = 0%nat /\ ends_of t o = [r] | _ => asked t o = 1%nat /\ ends_of t o = [] end.
Lemma part_finish t n r s : part t n (PEnd r) (snd (finish t r s)).
Proof. cbn. unfold part, asked, sends, ends_of. cbn. rewrite !Nat.eqb_refl. cbn. repeat split; auto; try lia. intros t' c [H|[]]. discriminate H. Qed.
Lemma part_send t n p q : isopen p = true -> (1 + ahead p <= n)%nat -> part t n p [OSend t q].
Proof.
  intros I L. unfold part, asked, sends, ends_of. cbn. rewrite !Nat.eqb_refl. cbn. repeat split; auto.
  - intros t' c [H|[]]. discriminate H.
  - destruct p; auto. discriminate I.
Qed.
Lemma part_next t es s : exists p, a_tasks (fst (info_next t es s)) = set_nth t p (a_tasks s) /\ part t (2 * List.length es) p (snd (info_next t es s)).
Proof.
  unfold info_next. destruct es as [|e es]; [eexists; split; [reflexivity|apply part_finish]|].
  destruct (entry_int e "groupingIdentifier") as [k|x]; [|eexists; split; [reflexivity|apply part_finish]].
  destruct (entry_int e "profile") as [p|x]; [|eexists; split; [reflexivity|apply part_finish]]. cbv zeta.
  destruct (new_msg m_AssociationGrpInfo_GroupNameGet _) as [q|x]; [|eexists; split; [reflexivity|]; exact (part_finish t _ (Err x) (with_groups _ s))].
  eexists. split; [reflexivity|]. apply part_send; [reflexivity|cbn; lia].
Qed.
Inductive turn (s : astate) : aevent -> astate -> list aobs -> Prop :=
| t_call c p s' o : a_tasks s' = a_tasks s ++ [p] -> part (List.length (a_tasks s)) (allowed c) p o ->
    turn s (ECall c) s' (OCall (List.length (a_tasks s)) c :: o)
| t_go t r p0 p s' o : nth_error (a_tasks s) t = Some p0 -> isopen p0 = true -> a_tasks s' = set_nth t p (a_tasks s) -> forall u, (u = [] \/ u = [OSaved]) -> part t (ahead p0) p o ->
    turn s (ESent t r) s' (u ++ o)
| t_other s' : a_tasks s' = a_tasks s -> turn s EOther s' [OSaved].
Lemma step_turn s e s' o : astep s e = Some (s', o) -> turn s e s' o.
Proof.
  intros E. destruct e as [c|t r|].
  - cbn [astep] in E. cbv zeta in E. destruct c as [m|m|m|].
    + destruct (on_name m _) as [gs r]. injection E as <- <-. apply t_call with (p := PEnd r); [apply set_last|]. exact (part_finish _ _ r (with_groups gs (new_task s))).
    + destruct (on_commands m _) as [gs r]. injection E as <- <-. apply t_call with (p := PEnd r); [apply set_last|]. exact (part_finish _ _ r (with_groups gs (new_task s))).
    + assert (F : forall x, Some (let (s0, o0) := finish (List.length (a_tasks s)) (Err x) (new_task s) in (s0, OCall (List.length (a_tasks s)) (CInfo m) :: o0)) = Some (s', o) -> turn s (ECall (CInfo m)) s' o).
      { intros x H. injection H as <- <-. apply t_call with (p := PEnd (Err x)); [apply set_last|]. exact (part_finish _ _ (Err x) (new_task s)). }
      destruct (getattr m "groups") as [| | | | | | | | | |es| | | | | | | | | | | | | | |] eqn:G; try (eapply F; exact E).
      destruct (part_next (List.length (a_tasks s)) es (new_task s)) as (p & T & C). destruct (info_next _ es _) as [s1 o1]. injection E as <- <-.
      apply t_call with (p := p); [cbn [fst] in T; rewrite T; apply set_last|]. unfold allowed, described. rewrite G. exact C.
    + unfold interview_start in E. destruct (new_msg m_AssociationGrpInfo_GroupInfoGet _) as [q|x] eqn:Q; [|discriminate Q]. injection E as <- <-.
      apply t_call with (p := PInterview); [apply set_last|]. apply part_send; [reflexivity|cbn; lia].
  - cbn [astep] in E. destruct (nth_error (a_tasks s) t) as [[k rest|rest| |x]|] eqn:T; try discriminate E; injection E as E.
    + destruct r as [b|x].
      * unfold commands_next in E. destruct (new_msg m_AssociationGrpInfo_GroupCommandListGet _) as [q|x] eqn:Q; [|discriminate Q]. injection E as <- <-.
        apply (t_go s t (Ok b) (PName k rest) (PCommands rest)) with (u := []); auto. apply part_send; [reflexivity|cbn; lia].
      * injection E as <- <-. apply (t_go s t (Err x) (PName k rest) (PEnd (Err x))) with (u := []); auto. exact (part_finish t _ (Err x) s).
    + destruct r as [b|x].
      * destruct (part_next t rest s) as (p & T' & C). rewrite E in T', C. apply (t_go s t (Ok b) (PCommands rest) p) with (u := []); auto.
      * injection E as <- <-. apply (t_go s t (Err x) (PCommands rest) (PEnd (Err x))) with (u := []); auto. exact (part_finish t _ (Err x) s).
    + destruct r as [b|x].
      * cbn in E. injection E as <- <-. apply (t_go s t (Ok b) PInterview (PEnd (interview_answer (Ok b)))) with (u := [OSaved]); auto. exact (part_finish t _ _ s).
      * assert (Z : finish t (interview_answer (Err x)) s = (s', o)) by (destruct x; exact E). injection Z as <- <-.
        apply (t_go s t (Err x) PInterview (PEnd (interview_answer (Err x)))) with (u := []); auto. exact (part_finish t _ _ s).
  - injection E as <- <-. apply t_other; reflexivity.
Qed.

(** one task, the number of its questions, of the answers to them and of its ends *)
Definition fine (p : apc) (n a : nat) (r : list (res bool)) (m : nat) : Prop :=
  (n + ahead p <= m)%nat /\ match p with PEnd x => n = a /\ r = [x] | _ => n = S a /\ r = [] end.
Record linv (s : astate) (es : list aevent) (tr : list aobs) : Prop := mkLInv {
  l_task : forall t c, In (OCall t c) tr -> exists p, nth_error (a_tasks s) t = Some p /\ fine p (asked t tr) (told_to t es) (ends_of t tr) (allowed c);
  l_new : forall t, (List.length (a_tasks s) <= t)%nat -> asked t tr = 0%nat /\ told_to t es = 0%nat /\ ends_of t tr = [] /\ forall c, ~ In (OCall t c) tr;
  l_once : forall t, (t < List.length (a_tasks s))%nat -> exists c, In (OCall t c) tr }.
Lemma ends_other t t' o : forallb (own t) o = true -> t' <> t -> ends_of t' o = [].
Proof.
  intros H D. unfold ends_of. induction o as [|x o IH]; [reflexivity|]. cbn [forallb] in H. apply andb_true_iff in H as [H1 H2]. cbn [flat_map]. rewrite (IH H2), app_nil_r.
  destruct x; try reflexivity. cbn in H1. apply Nat.eqb_eq in H1. subst. destruct (Nat.eqb_spec t t'); [congruence|reflexivity].
Qed.
Lemma asked_other t t' o : forallb (own t) o = true -> t' <> t -> asked t' o = 0%nat.
Proof. intros H D. unfold asked. now rewrite (sends_other t t' o H D). Qed.
Lemma told_one t e : told_to t [e] = match e with ESent t' _ => if Nat.eqb t' t then 1 else 0 | _ => 0 end%nat.
Proof. unfold told_to. destruct e; try reflexivity. cbn. destruct (Nat.eqb t0 t); reflexivity. Qed.
Lemma quiet_pre u t : u = [] \/ u = [OSaved] -> asked t u = 0%nat /\ ends_of t u = [] /\ forall t' c, ~ In (OCall t' c) u.
Proof. intros [->| ->]; repeat split; auto. intros t' c [H|[]]. discriminate H. Qed.
Lemma step_linv s es tr e s' o : linv s es tr -> astep s e = Some (s', o) -> linv s' (es ++ [e]) (tr ++ o).
Proof.
  intros [T N C] E. apply step_turn in E. destruct E as [c p s' o TS P|t r p0 p s' o T0 I0 TS u U P|s' TS].
  - set (t := List.length (a_tasks s)) in *. destruct P as (P1 & P2 & P3 & P4). destruct (N t (le_n _)) as (N1 & N2 & N3 & N4).
    assert (Q : forall t', asked t' (tr ++ OCall t c :: o) = (asked t' tr + asked t' o)%nat) by (intros t'; rewrite asked_app; f_equal).
    assert (R : forall t', ends_of t' (tr ++ OCall t c :: o) = ends_of t' tr ++ ends_of t' o) by (intros t'; rewrite ends_of_app; f_equal).
    assert (TT : forall t', told_to t' (es ++ [ECall c]) = told_to t' es) by (intros t'; rewrite told_to_app, told_one; lia).
    constructor.
    + intros t' c' J. rewrite Q, R, TT. apply in_app_iff in J as [J|[J|J]].
      * destruct (T t' c' J) as (p' & A & B). pose proof (nth_len _ _ _ A) as L. exists p'. split; [rewrite TS, nth_snoc; assumption|].
        assert (D : t' <> t) by (unfold t; lia). rewrite (asked_other t t' o P2 D), (ends_other t t' o P2 D), Nat.add_0_r, app_nil_r. exact B.
      * injection J as <- <-. exists p. split; [rewrite TS; apply nth_last|]. rewrite N1, N2, N3. cbn [app plus]. split; [exact P1|]. destruct p; exact P4.
      * destruct (P3 _ _ J).
    + intros t' L. rewrite TS, app_length in L. cbn in L. assert (D : t' <> t) by (unfold t; lia). destruct (N t' ltac:(unfold t in *; lia)) as (A1 & A2 & A3 & A4).
      rewrite Q, R, TT, (asked_other t t' o P2 D), (ends_other t t' o P2 D), A1, A2, A3. repeat split; auto.
      intros c' J. apply in_app_iff in J as [J|[J|J]]; [exact (A4 c' J)|injection J as J _; congruence|exact (P3 _ _ J)].
    + intros t' L. rewrite TS, app_length in L. cbn in L. destruct (Nat.eq_dec t' t) as [->|D]; [exists c; apply in_or_app; right; left; reflexivity|].
      destruct (C t' ltac:(unfold t in *; lia)) as (c' & J). exists c'. apply in_or_app. now left.
  - destruct P as (P1 & P2 & P3 & P4). pose proof (nth_len _ _ _ T0) as L0.
    assert (Q : forall t', asked t' (tr ++ u ++ o) = (asked t' tr + asked t' o)%nat) by (intros t'; rewrite !asked_app; destruct (quiet_pre u t' U) as [-> _]; lia).
    assert (R : forall t', ends_of t' (tr ++ u ++ o) = ends_of t' tr ++ ends_of t' o) by (intros t'; rewrite !ends_of_app; destruct (quiet_pre u t' U) as (_ & -> & _); reflexivity).
    assert (NC : forall t' c, In (OCall t' c) (tr ++ u ++ o) -> In (OCall t' c) tr).
    { intros t' c J. apply in_app_iff in J as [J|J]; [exact J|]. apply in_app_iff in J as [J|J]; [destruct (quiet_pre u t U) as (_ & _ & Z); destruct (Z _ _ J)|destruct (P3 _ _ J)]. }
    constructor.
    + intros t' c' J. apply NC in J. destruct (T t' c' J) as (p' & A & B). rewrite TS, nth_set, Q, R, told_to_app, told_one. destruct (Nat.eqb_spec t' t) as [->|D].
      * rewrite T0 in A. injection A as <-. rewrite T0, Nat.eqb_refl. exists p. split; [reflexivity|]. destruct B as [B1 B2].
        assert (B3 : asked t tr = S (told_to t es) /\ ends_of t tr = []) by (destruct p0; try exact B2; discriminate I0). destruct B3 as [B3 ->].
        split; [lia|]. cbn [app]. destruct p; destruct P4 as [P4 P5]; (split; [lia|exact P5]).
      * exists p'. split; [exact A|]. rewrite (asked_other t t' o P2 D), (ends_other t t' o P2 D), app_nil_r. destruct (Nat.eqb_spec t t'); [congruence|]. rewrite !Nat.add_0_r. exact B.
    + intros t' L. rewrite TS, set_length in L. assert (D : t' <> t) by lia. destruct (N t' L) as (A1 & A2 & A3 & A4).
      rewrite Q, R, told_to_app, told_one, (asked_other t t' o P2 D), (ends_other t t' o P2 D), A1, A2, A3. destruct (Nat.eqb_spec t t'); [congruence|]. repeat split; auto.
      intros c' J. exact (A4 c' (NC _ _ J)).
    + intros t' L. rewrite TS, set_length in L. destruct (C t' L) as (c' & J). exists c'. apply in_or_app. now left.
  - assert (Q : forall t', asked t' (tr ++ [OSaved]) = asked t' tr) by (intros t'; rewrite asked_app; cbn; lia).
    assert (R : forall t', ends_of t' (tr ++ [OSaved]) = ends_of t' tr) by (intros t'; rewrite ends_of_app; cbn; apply app_nil_r).
    assert (TT : forall t', told_to t' (es ++ [EOther]) = told_to t' es) by (intros t'; rewrite told_to_app, told_one; lia).
    assert (NC : forall t' c, In (OCall t' c) (tr ++ [OSaved]) -> In (OCall t' c) tr) by (intros t' c J; apply in_app_iff in J as [J|[J|[]]]; [exact J|discriminate J]).
    constructor.
    + intros t' c' J. apply NC in J. rewrite TS, Q, R, TT. exact (T t' c' J).
    + intros t' L. rewrite TS in L. rewrite Q, R, TT. destruct (N t' L) as (A1 & A2 & A3 & A4). repeat split; auto. intros c' J. exact (A4 c' (NC _ _ J)).
    + intros t' L. rewrite TS in L. destruct (C t' L) as (c' & J). exists c'. apply in_or_app. now left.
Qed.
Lemma exec_linv gs v i others base n ep d es s tr : aexec (astate0 gs v i others base n ep d) es s tr -> linv s es tr.
Proof.
  induction 1 as [|es s tr e s' o X IH ST].
  - constructor; [intros t c []| |intros t L; cbn in L; lia]. intros t L. repeat split; auto.
  - exact (step_linv _ _ _ _ _ _ IH ST).
Qed.

(** ** Few questions, one end *)
Lemma few gs v i others base n ep d es s tr t c : aexec (astate0 gs v i others base n ep d) es s tr -> In (OCall t c) tr ->
  (List.length (sends t tr) <= allowed c)%nat /\ (ends_of t tr = [] /\ List.length (sends t tr) = S (told_to t es) \/ exists r, ends_of t tr = [r] /\ List.length (sends t tr) = told_to t es).
Proof.
  intros X J. destruct (l_task _ _ _ (exec_linv _ _ _ _ _ _ _ _ _ _ _ X) t c J) as (p & _ & B1 & B2). unfold asked in *. split; [lia|].
  destruct p as [k rest|rest| |x]; destruct B2 as [B2 B3]; auto. right. exists x. auto.
Qed.
(** ** The end *)
Lemma go_on t r s p0 : nth_error (a_tasks s) t = Some p0 -> isopen p0 = true -> exists s' o, astep s (ESent t r) = Some (s', o).
Proof. intros T I. cbn [astep]. rewrite T. destruct p0; try discriminate I; eauto; destruct r; try (destruct (interview_end t _ s) as [a b]; eauto); match goal with |- context [Some ?x] => destruct x end; eauto. Qed.
Lemma over t : forall n s p0, nth_error (a_tasks s) t = Some p0 -> isopen p0 = true -> (ahead p0 < n)%nat -> forall rs, List.length rs = n ->
  exists k s' tr' r, (1 <= k <= n)%nat /\ aexec s (told_all t (firstn k rs)) s' tr' /\ ends_of t tr' = [r].
Proof.
  induction n as [|n IH]; intros s p0 T I L rs LR; [lia|]. destruct rs as [|r rs]; [discriminate LR|]. cbn in LR. injection LR as LR.
  destruct (go_on t r s p0 T I) as (s1 & o & E). pose proof (step_turn _ _ _ _ E) as K. inversion K as [| t' r' p0' p s' o' T' I' TS u U P Q1 Q2 Q3|]; subst. assert (p0' = p0) by congruence. subst p0'.
  destruct P as (P1 & P2 & P3 & P4). destruct (isopen p) eqn:IP.
  - assert (P5 : asked t o' = 1%nat /\ ends_of t o' = []) by (destruct p; try exact P4; discriminate IP). destruct P5 as [P5 P6].
    assert (T1 : nth_error (a_tasks s1) t = Some p) by (rewrite TS, nth_set, Nat.eqb_refl, T; reflexivity).
    destruct (IH s1 p T1 IP ltac:(lia) rs eq_refl) as (k & s2 & tr' & x & K1 & X & EN). exists (S k), s2, ((u ++ o') ++ tr'), x. split; [lia|]. split; [exact (aexec_step _ _ _ _ _ _ _ E X)|].
    rewrite !ends_of_app, P6, EN. destruct (quiet_pre u t U) as (_ & -> & _). reflexivity.
  - destruct p as [| | |x]; try discriminate IP. exists 1%nat, s1, (u ++ o'), x. split; [lia|]. split.
    + cbn. rewrite <- (app_nil_r (u ++ o')). apply (aexec_step _ _ _ _ _ _ _ E). constructor.
    + rewrite ends_of_app. destruct (quiet_pre u t U) as (_ & -> & _). exact (proj2 P4).
Qed.
Lemma ends gs v i others base n ep d es s tr t c rs : aexec (astate0 gs v i others base n ep d) es s tr -> In (OCall t c) tr -> (allowed c <= told_to t es + List.length rs)%nat ->
  exists k s' tr' r, (k <= List.length rs)%nat /\ aexec s (told_all t (firstn k rs)) s' tr' /\ ends_of t (tr ++ tr') = [r].
Proof.
  intros X J L. destruct (l_task _ _ _ (exec_linv _ _ _ _ _ _ _ _ _ _ _ X) t c J) as (p & T & B1 & B2). destruct (isopen p) eqn:IP.
  - assert (B3 : asked t tr = S (told_to t es) /\ ends_of t tr = []) by (destruct p; try exact B2; discriminate IP). destruct B3 as [B3 B4].
    destruct (over t (List.length rs) s p T IP ltac:(lia) rs eq_refl) as (k & s' & tr' & r & K & X' & EN). exists k, s', tr', r. split; [lia|]. split; [exact X'|]. rewrite ends_of_app, B4, EN. reflexivity.
  - destruct p as [| | |x]; try discriminate IP. destruct B2 as [_ B2]. exists 0%nat, s, [], x. split; [lia|]. split; [constructor|]. now rewrite app_nil_r.
Qed.
(** and it takes results only until then *)
Lemma stops s0 es s tr t c r : (exists gs v i others base n ep d, s0 = astate0 gs v i others base n ep d) -> aexec s0 es s tr -> In (OCall t c) tr -> ends_of t tr <> [] -> astep s (ESent t r) = None.
Proof.
  intros (gs & v & i & others & base & n & ep & d & ->) X J NE. destruct (l_task _ _ _ (exec_linv _ _ _ _ _ _ _ _ _ _ _ X) t c J) as (p & T & _ & B2). cbn [astep]. rewrite T.
  destruct p as [k rest|rest| |x]; destruct B2 as [_ B2]; try contradiction; reflexivity.
Qed.
