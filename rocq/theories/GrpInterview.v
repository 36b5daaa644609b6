(** C97: proofs about the interview of the association group information. *)
From Coq Require Import String ZArith List Bool Lia.
From Verif Require Import Py Schema Registry Codec StorageM GrpInfoM SpecGrpInfo GrpInfoProofs.
Import ListNotations.
Open Scope list_scope.
Open Scope string_scope.
Open Scope list_scope.
Open Scope Z_scope.

Definition calm (t : nat) (p : apc) (s s' : astate) (o : list aobs) : Prop :=
  a_interviewed s' = a_interviewed s /\ p <> PInterview /\ forallb (own t) o = true /\ (forall t' c, ~ In (OCall t' c) o) /\ ends t p o.
Lemma calm_finish t r s : calm t (PEnd r) s (fst (finish t r s)) (snd (finish t r s)).
Proof.
  split; [reflexivity|]. split; [discriminate|]. split; [cbn; now rewrite Nat.eqb_refl|]. split; [intros t' c [H|[]]; discriminate H|apply ends_finish].
Qed.
Lemma calm_send t p q s s' : a_interviewed s' = a_interviewed s -> p <> PInterview -> (forall r, p <> PEnd r) -> calm t p s s' [OSend t q].
Proof.
  intros I N E. repeat split; auto.
  - cbn. now rewrite Nat.eqb_refl.
  - intros t' c [H|[]]. discriminate H.
  - destruct H as [H|[]]. discriminate H.
  - destruct H as [H|[]]. discriminate H.
  - intros [_ H]. destruct (E r H).
Qed.
Lemma calm_next t es s : exists p, a_tasks (fst (info_next t es s)) = set_nth t p (a_tasks s) /\ calm t p s (fst (info_next t es s)) (snd (info_next t es s)).
Proof.
  unfold info_next. destruct es as [|e es]; [eexists; split; [reflexivity|apply calm_finish]|].
  destruct (entry_int e "groupingIdentifier") as [k|x]; [|eexists; split; [reflexivity|apply calm_finish]].
  destruct (entry_int e "profile") as [p|x]; [|eexists; split; [reflexivity|apply calm_finish]]. cbv zeta.
  destruct (new_msg m_AssociationGrpInfo_GroupNameGet _) as [q|x]; [|eexists; split; [reflexivity|]; exact (calm_finish t (Err x) (with_groups _ s))].
  eexists. split; [reflexivity|]. apply calm_send; try reflexivity; discriminate.
Qed.

Inductive kind (s : astate) : aevent -> astate -> list aobs -> Prop :=
| k_start q s' : compose q = Ok [89; 3; 64; 0] -> a_tasks s' = a_tasks s ++ [PInterview] -> a_interviewed s' = false ->
    kind s (ECall CInterview) s' [OCall (List.length (a_tasks s)) CInterview; OSend (List.length (a_tasks s)) q]
| k_call c p s' o : c <> CInterview -> a_tasks s' = a_tasks s ++ [p] -> calm (List.length (a_tasks s)) p s s' o ->
    kind s (ECall c) s' (OCall (List.length (a_tasks s)) c :: o)
| k_end t r s' : nth_error (a_tasks s) t = Some PInterview -> a_tasks s' = set_nth t (PEnd (interview_answer r)) (a_tasks s) ->
    a_interviewed s' = match r with Ok _ => true | Err _ => a_interviewed s end ->
    kind s (ESent t r) s' ((match r with Ok _ => [OSaved] | Err _ => [] end) ++ [OEnd t (interview_answer r)])
| k_go t r p0 p s' o : nth_error (a_tasks s) t = Some p0 -> p0 <> PInterview -> (forall x, p0 <> PEnd x) -> a_tasks s' = set_nth t p (a_tasks s) -> calm t p s s' o ->
    kind s (ESent t r) s' o
| k_other s' : a_tasks s' = a_tasks s -> a_interviewed s' = a_interviewed s -> kind s EOther s' [OSaved].

Lemma step_kind s e s' o : astep s e = Some (s', o) -> kind s e s' o.
Proof.
  intros E. destruct e as [c|t r|].
  - cbn [astep] in E. cbv zeta in E. destruct c as [m|m|m|].
    + destruct (on_name m _) as [gs r]. injection E as <- <-. apply k_call with (p := PEnd r); [discriminate|apply set_last|]. exact (calm_finish _ r (with_groups gs (new_task s))).
    + destruct (on_commands m _) as [gs r]. injection E as <- <-. apply k_call with (p := PEnd r); [discriminate|apply set_last|]. exact (calm_finish _ r (with_groups gs (new_task s))).
    + assert (F : forall x, Some (let (s0, o0) := finish (List.length (a_tasks s)) (Err x) (new_task s) in (s0, OCall (List.length (a_tasks s)) (CInfo m) :: o0)) = Some (s', o) -> kind s (ECall (CInfo m)) s' o).
      { intros x H. injection H as <- <-. apply k_call with (p := PEnd (Err x)); [discriminate|apply set_last|]. exact (calm_finish _ (Err x) (new_task s)). }
      destruct (getattr m "groups") as [| | | | | | | | | |es| | | | | | | | | | | | | | |]; try (eapply F; exact E).
      destruct (calm_next (List.length (a_tasks s)) es (new_task s)) as (p & T & C). destruct (info_next _ es _) as [s1 o1]. injection E as <- <-.
      apply k_call with (p := p); [discriminate|cbn [fst] in T; rewrite T; apply set_last|exact C].
    + unfold interview_start in E. destruct (new_msg m_AssociationGrpInfo_GroupInfoGet _) as [q|x] eqn:Q; [|discriminate Q]. injection E as <- <-.
      apply k_start; [exact (interview_bytes q Q)|apply set_last|reflexivity].
  - cbn [astep] in E. destruct (nth_error (a_tasks s) t) as [[k rest|rest| |x]|] eqn:T; try discriminate E; injection E as E.
    + destruct r as [b|x].
      * unfold commands_next in E. destruct (new_msg m_AssociationGrpInfo_GroupCommandListGet _) as [q|x] eqn:Q; [|discriminate Q]. injection E as <- <-.
        apply k_go with (p0 := PName k rest) (p := PCommands rest); try discriminate; [exact T|reflexivity|]. apply calm_send; try reflexivity; discriminate.
      * injection E as <- <-. apply k_go with (p0 := PName k rest) (p := PEnd (Err x)); try discriminate; [exact T|reflexivity|]. exact (calm_finish t (Err x) s).
    + destruct r as [b|x].
      * destruct (calm_next t rest s) as (p & T' & C). rewrite E in T', C. apply k_go with (p0 := PCommands rest) (p := p); try discriminate; [exact T|exact T'|exact C].
      * injection E as <- <-. apply k_go with (p0 := PCommands rest) (p := PEnd (Err x)); try discriminate; [exact T|reflexivity|]. exact (calm_finish t (Err x) s).
    + destruct r as [b|x].
      * cbn in E. injection E as <- <-. apply (k_end s t (Ok b)); [exact T|reflexivity|reflexivity].
      * assert (Z : finish t (interview_answer (Err x)) s = (s', o)) by (destruct x; exact E). injection Z as <- <-. apply (k_end s t (Err x)); [exact T|reflexivity|reflexivity].
  - injection E as <- <-. apply k_other; reflexivity.
Qed.

(** one interview task [t] *)
Definition told (t : nat) (p : option apc) (es : list aevent) (tr : list aobs) : Prop :=
  (p = Some PInterview /\ (forall r, ~ In (OEnd t r) tr) /\ forall r, ~ In (ESent t r) es) \/
  (exists r a b, p = Some (PEnd (interview_answer r)) /\ In (ESent t r) es /\ (forall r', In (OEnd t r') tr <-> r' = interview_answer r) /\
     (forall r', In (ESent t r') es -> r' = r) /\
     tr = a ++ (match r with Ok _ => [OSaved] | Err _ => [] end) ++ OEnd t (interview_answer r) :: b).
Record iinv (i : bool) (s : astate) (es : list aevent) (tr : list aobs) : Prop := mkIInv {
  v_pc : forall t, nth_error (a_tasks s) t = Some PInterview -> In (OCall t CInterview) tr;
  v_len : forall t c, In (OCall t c) tr -> (t < List.length (a_tasks s))%nat;
  v_end : forall t r, In (OEnd t r) tr -> nth_error (a_tasks s) t = Some (PEnd r);
  v_new : forall t, (List.length (a_tasks s) <= t)%nat -> sends t tr = [] /\ forall r, ~ In (ESent t r) es;
  v_task : forall t, In (OCall t CInterview) tr -> sends t tr = [Ok [89; 3; 64; 0]] /\ told t (nth_error (a_tasks s) t) es tr;
  v_flag : last_of (marks tr) (Some i) tr (Some (a_interviewed s)) }.

Lemma last_iff {V} (P Q : aobs -> V -> Prop) i tr v : (forall o x, In o tr -> (P o x <-> Q o x)) -> last_of P i tr v -> last_of Q i tr v.
Proof.
  intros H [(a & o & b & x & -> & K & E & N)|[E N]].
  - left. exists a, o, b, x. split; [reflexivity|]. split; [apply H; [apply in_or_app; right; left; reflexivity|exact K]|]. split; [exact E|].
    intros o' x' J K'. apply (N o' x' J). apply H; [apply in_or_app; right; right; exact J|exact K'].
  - right. split; [exact E|]. intros o x J K. apply (N o x J). apply H; assumption.
Qed.
(** more observations: marks of what came before stay the same when the new calls are of new tasks *)
Lemma flag_old i s es tr os : iinv i s es tr -> (forall t, In (OCall t CInterview) os -> (List.length (a_tasks s) <= t)%nat) ->
  last_of (marks (tr ++ os)) (Some i) tr (Some (a_interviewed s)).
Proof.
  intros I N. eapply last_iff; [|exact (v_flag _ _ _ _ I)]. intros o x J. unfold marks. split; (intros [H|(t & -> & C & ->)]; [left; exact H|right; exists t; split; [reflexivity|]; split; [|reflexivity]]).
  - apply in_or_app. left. exact C.
  - apply in_app_iff in C as [C|C]; [exact C|]. exfalso. pose proof (v_end _ _ _ _ I _ _ J) as T. assert (L : (t < List.length (a_tasks s))%nat) by (apply nth_error_Some; congruence). specialize (N t C). lia.
Qed.
Lemma told_more t p es tr e os : told t p es tr -> (forall r, ~ In (OEnd t r) os) -> (forall r, e <> ESent t r) -> told t p (es ++ [e]) (tr ++ os).
Proof.
  intros [(P & A & B)|(r & a & b & P & A & B & C & D)] NO NE.
  - left. split; [exact P|]. split; intros r J; apply in_app_iff in J as [J|J]; [exact (A r J)|exact (NO r J)|exact (B r J)|destruct J as [J|[]]; exact (NE r J)].
  - right. exists r, a, (b ++ os). split; [exact P|]. split; [apply in_or_app; left; exact A|]. split; [|split].
    + intros r'. rewrite in_app_iff, (B r'). split; [intros [J|J]; [exact J|destruct (NO r' J)]|auto].
    + intros r' J. apply in_app_iff in J as [J|[J|[]]]; [exact (C r' J)|destruct (NE r' J)].
    + rewrite D, <- !app_assoc. reflexivity.
Qed.
Lemma nth_len {A} (l : list A) t x : nth_error l t = Some x -> (t < List.length l)%nat.
Proof. intros H. apply nth_error_Some. congruence. Qed.
Lemma nth_snoc {A} (l : list A) x t : (t < List.length l)%nat -> nth_error (l ++ [x]) t = nth_error l t.
Proof. intros H. now rewrite nth_error_app1. Qed.
Lemma nth_last {A} (l : list A) x : nth_error (l ++ [x]) (List.length l) = Some x.
Proof. rewrite nth_error_app2, Nat.sub_diag by lia. reflexivity. Qed.

(** a task other than an interview starts or goes on *)
Lemma calm_step i s es tr e s' os t p : iinv i s es tr -> calm t p s s' os ->
  (forall t', t' <> t -> nth_error (a_tasks s') t' = nth_error (a_tasks s) t') -> nth_error (a_tasks s') t = Some p ->
  (List.length (a_tasks s) <= List.length (a_tasks s'))%nat ->
  (forall r, ~ In (OEnd t r) tr) -> ~ In (OCall t CInterview) tr -> (forall t' r, e = ESent t' r -> t' = t) ->
  forall pre, (pre = [] \/ exists c, pre = [OCall t c] /\ c <> CInterview) -> iinv i s' (es ++ [e]) (tr ++ pre ++ os).
Proof.
  intros I (FL & NP & OW & NC & EN) TO TT LE NE NI EV pre PRE.
  assert (PC : forall t', ~ In (OCall t' CInterview) (pre ++ os)).
  { intros t' J. apply in_app_iff in J as [J|J]; [|exact (NC _ _ J)]. destruct PRE as [->|(c & -> & C)]; [exact J|]. destruct J as [J|[]]. injection J as _ J. exact (C J). }
  assert (PE : forall t' r, In (OEnd t' r) (pre ++ os) -> t' = t /\ p = PEnd r).
  { intros t' r J. apply in_app_iff in J as [J|J]; [|apply EN; exact J]. destruct PRE as [->|(c & -> & C)]; [destruct J|]. destruct J as [J|[]]. discriminate J. }
  assert (SO : forall t', t' <> t -> sends t' (pre ++ os) = []).
  { intros t' D. apply (sends_other t); [|exact D]. destruct PRE as [->|(c & -> & C)]; [exact OW|]. cbn. now rewrite Nat.eqb_refl, OW. }
  constructor.
  - intros t' T. apply in_or_app. left. destruct (Nat.eq_dec t' t) as [->|D]; [congruence|]. apply (v_pc _ _ _ _ I). now rewrite <- TO.
  - intros t' c J. apply in_app_iff in J as [J|J]; [pose proof (v_len _ _ _ _ I _ _ J); lia|]. apply in_app_iff in J as [J|J]; [|destruct (NC _ _ J)].
    destruct PRE as [->|(c' & -> & C)]; [destruct J|]. destruct J as [J|[]]. injection J as <- <-. exact (nth_len _ _ _ TT).
  - intros t' r J. apply in_app_iff in J as [J|J].
    + destruct (Nat.eq_dec t' t) as [->|D]; [destruct (NE r J)|]. rewrite (TO _ D). exact (v_end _ _ _ _ I _ _ J).
    + destruct (PE _ _ J) as [-> ->]. exact TT.
  - intros t' L. destruct (Nat.eq_dec t' t) as [->|D]; [pose proof (nth_len _ _ _ TT); lia|]. destruct (v_new _ _ _ _ I t' ltac:(lia)) as [S E]. split; [rewrite sends_app, S; exact (SO t' D)|].
    intros r J. apply in_app_iff in J as [J|[J|[]]]; [exact (E r J)|exact (D (EV _ _ J))].
  - intros t' J. apply in_app_iff in J as [J|J]; [|destruct (PC _ J)]. assert (D : t' <> t) by (intros ->; exact (NI J)).
    destruct (v_task _ _ _ _ I _ J) as [S T]. split; [rewrite sends_app, S, (SO t' D); reflexivity|]. rewrite (TO _ D). apply told_more; [exact T| |].
    + intros r K. destruct (PE _ _ K) as [K' _]. exact (D K').
    + intros r K. exact (D (EV _ _ K)).
  - rewrite FL. apply last_quiet; [eapply flag_old; [exact I|]; intros t' J; destruct (PC _ J)|].
    intros o x J [(t' & -> & _)|(t' & -> & C & _)]; [exact (PC _ J)|]. destruct (PE _ _ J) as [-> _]. apply in_app_iff in C as [C|C]; [exact (NI C)|exact (PC _ C)].
Qed.

Lemma iinv_step i s es tr e s' o : iinv i s es tr -> kind s e s' o -> iinv i s' (es ++ [e]) (tr ++ o).
Proof.
  intros I K. destruct K as [q s' QB T FL|c p s' o C T CA|t r s' PT T FL|t r p0 p s' o PT NI NE T CA|s' T FL].
  - set (n := List.length (a_tasks s)) in *.
    assert (L' : List.length (a_tasks s') = S n) by (rewrite T, app_length; cbn; fold n; lia).
    constructor.
    + intros t' H. destruct (Nat.eq_dec t' n) as [->|D]; [apply in_or_app; right; left; reflexivity|]. pose proof (nth_len _ _ _ H) as L. rewrite T, nth_snoc in H by (fold n; lia). apply in_or_app. left. exact (v_pc _ _ _ _ I _ H).
    + intros t' c J. rewrite L'. apply in_app_iff in J as [J|[J|[J|[]]]]; [pose proof (v_len _ _ _ _ I _ _ J) as L; fold n in L; lia|injection J as <- _; lia|discriminate J].
    + intros t' r J. apply in_app_iff in J as [J|[J|[J|[]]]]; [|discriminate J|discriminate J]. pose proof (v_end _ _ _ _ I _ _ J) as H. rewrite T, nth_snoc by exact (nth_len _ _ _ H). exact H.
    + intros t' H. destruct (v_new _ _ _ _ I t' ltac:(fold n; lia)) as [S E]. split.
      * rewrite sends_app, S. cbn. destruct (Nat.eqb_spec n t'); [lia|reflexivity].
      * intros r J. apply in_app_iff in J as [J|[J|[]]]; [exact (E r J)|discriminate J].
    + intros t' J. destruct (Nat.eq_dec t' n) as [->|D].
      * destruct (v_new _ _ _ _ I n ltac:(fold n; lia)) as [S E]. split; [rewrite sends_app, S; cbn; now rewrite Nat.eqb_refl, QB|]. left. rewrite T. split; [apply nth_last|]. split.
        -- intros r K. apply in_app_iff in K as [K|[K|[K|[]]]]; [|discriminate K|discriminate K]. pose proof (nth_len _ _ _ (v_end _ _ _ _ I _ _ K)) as L. fold n in L. lia.
        -- intros r K. apply in_app_iff in K as [K|[K|[]]]; [exact (E r K)|discriminate K].
      * apply in_app_iff in J as [J|[J|[J|[]]]]; [|injection J as J; congruence|discriminate J]. destruct (v_task _ _ _ _ I _ J) as [S TD]. split.
        -- rewrite sends_app, S. cbn. destruct (Nat.eqb_spec n t'); [congruence|reflexivity].
        -- pose proof (v_len _ _ _ _ I _ _ J) as L. rewrite T, nth_snoc by exact L. apply told_more; [exact TD| |intros r K; discriminate K]. intros r [K|[K|[]]]; discriminate K.
    + rewrite FL. apply last_new; [left; eauto|]. intros o' x' [<-|[]] [(t' & H & _)|(t' & H & _)]; discriminate H.
  - set (n := List.length (a_tasks s)) in *.
    apply (calm_step i s es tr (ECall c) s' o n p I CA) with (pre := [OCall n c]).
    + intros t' D. rewrite T. destruct (Nat.lt_ge_cases t' n) as [L|L]; [apply nth_snoc; exact L|].
      transitivity (@None apc); [|symmetry; apply nth_error_None; exact L]. apply nth_error_None. rewrite app_length. cbn. fold n. lia.
    + rewrite T. apply nth_last.
    + rewrite T, app_length. lia.
    + intros r J. pose proof (nth_len _ _ _ (v_end _ _ _ _ I _ _ J)) as L. fold n in L. lia.
    + intros J. pose proof (v_len _ _ _ _ I _ _ J) as L. fold n in L. lia.
    + intros t' r H. discriminate H.
    + right. exists c. auto.
  - assert (L' : List.length (a_tasks s') = List.length (a_tasks s)) by (rewrite T; apply set_length).
    assert (TO : forall t', t' <> t -> nth_error (a_tasks s') t' = nth_error (a_tasks s) t').
    { intros t' D. rewrite T, nth_set. destruct (Nat.eqb_spec t' t); [congruence|reflexivity]. }
    assert (TT : nth_error (a_tasks s') t = Some (PEnd (interview_answer r))) by (rewrite T, nth_set, Nat.eqb_refl, PT; reflexivity).
    set (os := match r with Ok _ => [OSaved] | Err _ => [] end) in *.
    assert (OS : forall o, In o os -> o = OSaved) by (unfold os; destruct r; cbn; intuition congruence).
    assert (SS : forall t' x, sends t' (os ++ [OEnd t x]) = []) by (intros t' x; unfold os; destruct r; reflexivity).
    pose proof (v_pc _ _ _ _ I _ PT) as CT. pose proof (nth_len _ _ _ PT) as LT.
    constructor.
    + intros t' H. destruct (Nat.eq_dec t' t) as [->|D]; [congruence|]. rewrite (TO _ D) in H. apply in_or_app. left. exact (v_pc _ _ _ _ I _ H).
    + intros t' c J. rewrite L'. apply in_app_iff in J as [J|J]; [exact (v_len _ _ _ _ I _ _ J)|]. apply in_app_iff in J as [J|[J|[]]]; [apply OS in J; discriminate J|discriminate J].
    + intros t' r' J. apply in_app_iff in J as [J|J].
      * destruct (Nat.eq_dec t' t) as [->|D]; [rewrite (v_end _ _ _ _ I _ _ J) in PT; discriminate PT|]. rewrite (TO _ D). exact (v_end _ _ _ _ I _ _ J).
      * apply in_app_iff in J as [J|[J|[]]]; [apply OS in J; discriminate J|]. injection J as <- <-. exact TT.
    + intros t' H. rewrite L' in H. destruct (v_new _ _ _ _ I t' H) as [S E]. split; [now rewrite sends_app, S, SS|].
      intros r' J. apply in_app_iff in J as [J|[J|[]]]; [exact (E r' J)|]. injection J as -> ->. lia.
    + intros t' J. assert (J' : In (OCall t' CInterview) tr).
      { apply in_app_iff in J as [J|J]; [exact J|]. apply in_app_iff in J as [J|[J|[]]]; [apply OS in J; discriminate J|discriminate J]. }
      destruct (v_task _ _ _ _ I _ J') as [S TD]. split; [now rewrite sends_app, S, SS|]. destruct (Nat.eq_dec t' t) as [->|D].
      * right. destruct TD as [(_ & A & B)|(r0 & a & b & P & _)]; [|congruence]. exists r, tr, []. split; [exact TT|]. split; [apply in_or_app; right; left; reflexivity|]. split; [|split; [|reflexivity]].
        -- intros r'. split.
           ++ intros K. apply in_app_iff in K as [K|K]; [destruct (A r' K)|]. apply in_app_iff in K as [K|[K|[]]]; [apply OS in K; discriminate K|]. now injection K.
           ++ intros ->. apply in_or_app. right. apply in_or_app. right. left. reflexivity.
        -- intros r' K. apply in_app_iff in K as [K|[K|[]]]; [destruct (B r' K)|]. now injection K.
      * rewrite (TO _ D). apply told_more; [exact TD| |intros r' K; injection K as K _; congruence].
        intros r' K. apply in_app_iff in K as [K|[K|[]]]; [apply OS in K; discriminate K|injection K as K _; congruence].
    + rewrite FL. assert (OLD : last_of (marks (tr ++ os ++ [OEnd t (interview_answer r)])) (Some i) tr (Some (a_interviewed s))).
      { eapply flag_old; [exact I|]. intros t' J. apply in_app_iff in J as [J|[J|[]]]; [apply OS in J; discriminate J|discriminate J]. }
      destruct r as [b|x].
      * change (tr ++ os ++ [OEnd t (interview_answer (Ok b))]) with (tr ++ OSaved :: [OEnd t (Ok true)]).
        replace (tr ++ OSaved :: [OEnd t (Ok true)]) with ((tr ++ [OSaved]) ++ OEnd t (Ok true) :: []) by now rewrite <- app_assoc.
        apply last_new; [|intros o' x' []]. right. exists t. split; [reflexivity|]. split; [apply in_or_app; left; apply in_or_app; left; exact CT|reflexivity].
      * apply last_quiet; [exact OLD|]. intros o y [<-|[]] [(t' & H & _)|(t' & H & _)]; [discriminate H|]. injection H as _ H. destruct x; discriminate H.
  - assert (L' : List.length (a_tasks s') = List.length (a_tasks s)) by (rewrite T; apply set_length).
    assert (NC : ~ In (OCall t CInterview) tr).
    { intros J. destruct (v_task _ _ _ _ I _ J) as [_ [(P & _)|(r0 & a & b & P & _)]]; rewrite PT in P; injection P as P; [exact (NI P)|exact (NE _ P)]. }
    apply (calm_step i s es tr (ESent t r) s' o t p I CA) with (pre := []); auto.
    + intros t' D. rewrite T, nth_set. destruct (Nat.eqb_spec t' t); [congruence|reflexivity].
    + rewrite T, nth_set, Nat.eqb_refl, PT. reflexivity.
    + lia.
    + intros r' J. rewrite (v_end _ _ _ _ I _ _ J) in PT. injection PT as PT. exact (NE _ (eq_sym PT)).
    + intros t' r' H. now injection H.
  - destruct I as [A B C D E F]. constructor; rewrite ?T.
    + intros t H. apply in_or_app. left. exact (A _ H).
    + intros t c J. apply in_app_iff in J as [J|[J|[]]]; [exact (B _ _ J)|discriminate J].
    + intros t r J. apply in_app_iff in J as [J|[J|[]]]; [exact (C _ _ J)|discriminate J].
    + intros t H. destruct (D t H) as [S N]. split; [now rewrite sends_app, S|]. intros r J. apply in_app_iff in J as [J|[J|[]]]; [exact (N r J)|discriminate J].
    + intros t J. apply in_app_iff in J as [J|[J|[]]]; [|discriminate J]. destruct (E _ J) as [S TD]. split; [now rewrite sends_app, S|].
      apply told_more; [exact TD| |intros r K; discriminate K]. intros r [K|[]]. discriminate K.
    + rewrite FL. apply last_quiet; [eapply flag_old; [constructor; eassumption|]; intros t [J|[]]; discriminate J|]. intros o x [<-|[]] [(t & H & _)|(t & H & _)]; discriminate H.
Qed.
Lemma exec_iinv gs v i others base n ep d es s tr : aexec (astate0 gs v i others base n ep d) es s tr -> iinv i s es tr.
Proof.
  intros X. induction X as [|es s tr e s' o X IH ST].
  - constructor; cbn; try contradiction.
    + intros [|t] H; discriminate H.
    + auto.
    + right. split; [reflexivity|intros o x []].
  - eapply iinv_step; [exact IH|]. now apply step_kind.
Qed.

(** ** C97 *)
Lemma interview_story gs v i others base n ep d es s tr t : aexec (astate0 gs v i others base n ep d) es s tr -> In (OCall t CInterview) tr ->
  sends t tr = [Ok [89; 3; 64; 0]] /\
  (((forall r, ~ In (OEnd t r) tr) /\ forall r, ~ In (ESent t r) es) \/
   (exists r, In (ESent t r) es /\ forall r', In (OEnd t r') tr <-> r' = interview_answer r)).
Proof.
  intros X C. destruct (v_task _ _ _ _ (exec_iinv _ _ _ _ _ _ _ _ _ _ _ X) _ C) as [S [(_ & A & B)|(r & a & b & _ & A & B & _)]]; (split; [exact S|]); [left; auto|right; exists r; auto].
Qed.
Lemma interview_saves gs v i others base n ep d es s tr t : aexec (astate0 gs v i others base n ep d) es s tr -> In (OCall t CInterview) tr -> In (OEnd t (Ok true)) tr ->
  exists a b, tr = a ++ OSaved :: OEnd t (Ok true) :: b.
Proof.
  intros X C E. destruct (v_task _ _ _ _ (exec_iinv _ _ _ _ _ _ _ _ _ _ _ X) _ C) as [S [(_ & A & B)|(r & a & b & _ & A & B & _ & D)]]; [destruct (A _ E)|].
  apply B in E. destruct r as [y|x]; [|destruct x; discriminate E]. exists a, b. exact D.
Qed.
Lemma interview_flag gs v i others base n ep d es s tr : aexec (astate0 gs v i others base n ep d) es s tr ->
  last_of (marks tr) (Some i) tr (Some (a_interviewed s)).
Proof. intros X. exact (v_flag _ _ _ _ (exec_iinv _ _ _ _ _ _ _ _ _ _ _ X)). Qed.
