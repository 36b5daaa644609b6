(** Every known node was announced, if nothing failed (C79). *)
From Coq Require Import String ZArith List Bool Lia.
From Verif Require Import Py Schema Registry Codec Waiter Conn NodeM AppM SpecApp AppProofs AppUpdate.
Import ListNotations.
Open Scope list_scope.
Open Scope string_scope.
Open Scope list_scope.
Open Scope Z_scope.

(** the objects a task still has to announce *)
Definition pending (p : apc) (i : nat) : Prop :=
  match p with
  | PInfo _ (KUpdate _ new) => In i new
  | PCount _ root (KUpdate _ new) => In i (new ++ [root])
  | PCap _ _ _ _ got (KUpdate _ new) => In i (new ++ got)
  | PAddedAll new => In i new
  | PAdded rest => In i rest
  | PInfo _ (KStart _) | PCount _ _ (KStart _) | PCap _ _ _ _ _ (KStart _) | PFailed | PStartAll => True
  | PStartEach rest _ => In i rest
  | PInfo _ KLoad | PCount _ _ KLoad | PCap _ _ _ _ _ KLoad => True
  | PEnd (Err _) | PEnd (Ok (RNodes _)) => True
  | _ => False
  end.
Definition puts (t : nat) (os : list aobs) (i : nat) : Prop := exists k, In (OPut t k i) os.
Definition tells_add (t : nat) (os : list aobs) (i : nat) : Prop := In (OTell t (WAdded i)) os.
(** [Q]: what the task had to announce before *)
Definition keeps (t : nat) (Q : nat -> Prop) (g : ago) : Prop := forall i k, Q i \/ puts t (snd (fst g)) i -> ent (fst (fst g)) k = Some i -> tells_add t (snd (fst g)) i \/ pending (snd g) i.
Definition news_of (k : kont) (nodes : list nat) (i : nat) : Prop := match k with KUpdate _ new => In i (new ++ nodes) | _ => True end.
Lemma keeps_then t Q os g : keeps t (fun i => Q i \/ puts t os i) g -> keeps t Q (obs_then os g).
Proof.
  destruct g as [[d os'] p]. unfold keeps. cbn. intros K i k [H|(k' & H)] E.
  - destruct (K i k) as [T|P]; [auto|exact E| |]; [left; apply in_or_app; auto|auto].
  - apply in_app_or in H as [H|H]; (destruct (K i k) as [T|P]; [|exact E| |]; [first [left; right; exists k'; exact H|right; exists k'; exact H]|left; apply in_or_app; auto|auto]).
Qed.
Lemma keeps_weak t (Q Q' : nat -> Prop) g : (forall i, Q i -> Q' i) -> keeps t Q' g -> keeps t Q g.
Proof. intros W K i k [H|H] E; [apply (K i k); auto|apply (K i k); auto]. Qed.
Ltac noput H := destruct H as [H|(? & H)]; [|cbn in H; repeat (destruct H as [H|H]; [discriminate H|]); destruct H].
Lemma keeps_announce t new d : keeps t (fun i => In i new) (announce t new d).
Proof. destruct new as [|o new]; intros i k H E; cbn in *; noput H; [destruct H|right; exact H]. Qed.
Lemma keeps_loop me t rest : forall new d, keeps t (fun i => In i new) (update_loop me t rest new d).
Proof.
  induction rest as [|n rest IH]; intros new d; cbn [update_loop]; [apply keeps_announce|]. destruct (dmem _ _ _); [apply IH|]. destruct (n =? me); [apply IH|]. intros i k H E. noput H. right. exact H.
Qed.
Lemma keeps_start me t rest : forall Q d, keeps t Q (start_loop me t rest d).
Proof. induction rest as [|n rest IH]; intros Q d; cbn [start_loop]; [intros i k _ _; right; exact I|]. destruct (n =? me); [apply IH|]. intros i k _ _. right. exact I. Qed.
Lemma keeps_loaded me t k nodes d : keeps t (news_of k nodes) (loaded me t k nodes d).
Proof. destruct k; [intros i x _ _; right; exact I|apply keeps_loop|apply keeps_start]. Qed.
Lemma keeps_caps me t n root ep last got k d : keeps t (news_of k got) (caps me t n root ep last got k d).
Proof. unfold caps. destruct (ep <=? last); [|apply keeps_loaded]. intros i x H E. right. noput H. destruct k; exact H. Qed.
Lemma puts_one t k o i : puts t [OPut t k o] i -> i = o.
Proof. intros (k' & [H|[]]). congruence. Qed.
Lemma keeps_info me t n cls bas gen spc lis k d : keeps t (news_of k []) (with_info me t n cls bas gen spc lis k d).
Proof.
  unfold with_info. destruct (new_node cls) as [c|e]; [|intros i x _ _; right; exact I]. unfold put. cbn. destruct (supports c 96).
  - intros i x H E. right. cbn in *. destruct k; try exact I. apply in_or_app. destruct H as [H|(k' & [H|[H|[]]])]; [left; cbn in H; rewrite app_nil_r in H; exact H| |discriminate]. injection H as _ <-. right. left. reflexivity.
  - apply (keeps_then t _ [_]). eapply keeps_weak; [|apply keeps_loaded]. intros i [H|H]; (destruct k; try exact I); cbn in *; apply in_or_app; [rewrite app_nil_r in H; auto|]. apply puts_one in H. subst. right. left. reflexivity.
Qed.
Lemma keeps_cap me t n root ep last got cls gen spc k d : keeps t (news_of k got) (with_cap me t n root ep last got cls gen spc k d).
Proof.
  unfold with_cap. destruct (new_node cls) as [c|e]; [|intros i x _ _; right; exact I]. unfold put. cbn.
  apply (keeps_then t _ [_]). eapply keeps_weak; [|apply keeps_caps]. intros i [H|H]; (destruct k; try exact I); cbn in *; rewrite app_assoc; apply in_or_app; [auto|]. apply puts_one in H. subst. right. left. reflexivity.
Qed.
Lemma keeps_remove me t rest all l d : keeps t (fun _ => False) (remove me t rest all l d).
Proof.
  destruct rest as [|k rest]; cbn [remove].
  - destruct all; [eapply keeps_weak; [|apply keeps_loop]; tauto|]. intros i k' H E. noput H. destruct H.
  - destruct (dmem _ _ _); intros i k' H E; noput H; destruct H.
Qed.
Lemma keeps_each t rest size d : keeps t (fun i => In i rest) (start_each t rest size d).
Proof.
  unfold start_each. destruct (Nat.eqb _ _); [|intros i k _ _; right; exact I]. destruct rest as [|o rest]; intros i k H E; noput H; [destruct H|]. cbn in *. destruct H as [<-|H]; [left; left; reflexivity|auto].
Qed.
Lemma resume_keeps me t p a d g : aresume me t p a d = Some g -> keeps t (pending p) g.
Proof.
  intros E. destruct p, a; try discriminate E; cbn [aresume] in E; try (injection E as <-); try apply keeps_then.
  - eapply keeps_weak; [|apply keeps_remove]. intros i [[]|(k & [H|[]])]; discriminate.
  - eapply keeps_weak; [|apply keeps_remove]. auto.
  - eapply keeps_weak; [|apply keeps_loop]. cbn. tauto.
  - eapply keeps_weak; [|apply keeps_info]. intros i [H|(x & [H|[]])]; [|discriminate]. destruct k; try exact I. cbn in *. rewrite app_nil_r. exact H.
  - eapply keeps_weak; [|apply keeps_caps]. intros i [H|(x & [H|[]])]; [|discriminate]. destruct k; try exact I. exact H.
  - eapply keeps_weak; [|apply keeps_cap]. intros i [H|(x & [H|[]])]; [|discriminate]. destruct k; try exact I. exact H.
  - intros i k H E'. destruct new as [|o new]; noput H; [destruct H|]. cbn in H. destruct H as [<-|H]; [left; left; reflexivity|right; exact H].
  - intros i k H E'. destruct rest as [|o rest]; noput H; [destruct H|]. cbn in H. destruct H as [<-|H]; [left; left; reflexivity|right; exact H].
  - apply keeps_start.
  - intros i k _ _. right. exact I.
  - intros i k H E'. refine (keeps_each t (map snd (fst d)) (length (fst d)) d i k _ E'). left.
    assert (EQ : fst (fst (start_each t (map snd (fst d)) (length (fst d)) d)) = d) by (unfold start_each; destruct (Nat.eqb _ _); [destruct (map _ _)|]; reflexivity). rewrite EQ in E'.
    apply kget_in in E'. apply in_map_iff. exists (k, i). auto.
  - apply keeps_each.
  - intros i k H _. noput H. destruct H.
  - intros i k H _. noput H. destruct H.
  - intros i k H _. noput H. destruct H.
  - destruct (int_is _ 6); [destruct (int_is _ 0)|]; injection E as <-; intros i k H _; noput H; destruct H.
  - intros i k H _. noput H. destruct H.
  - intros i k H _. noput H. destruct H.
  - intros i k H _. noput H. destruct H.
Qed.

(** ** what is in the table was put there *)
Definition source (t : nat) (d : tabs) (g : ago) : Prop := forall k i, ent (fst (fst g)) k = Some i -> ent d k = Some i \/ In (OPut t k i) (snd (fst g)).
Lemma source_id t d g : fst (fst g) = d -> source t d g. Proof. intros E k i H. rewrite E in H. auto. Qed.
Lemma source_then t d os g : source t d g -> source t d (obs_then os g).
Proof. destruct g as [[d' os'] p]. intros S k i H. destruct (S k i H) as [E|E]; [auto|]. right. cbn. apply in_or_app. auto. Qed.
Lemma source_put t o d g : source t (fst (put t o d)) g -> source t d (obs_then [snd (put t o d)] g).
Proof.
  destruct g as [[d' os'] p]. intros S k i H. destruct (S k i H) as [E|E]; [|right; right; exact E].
  rewrite ent_put in E. destruct (key_eqb k (o_key o)) eqn:K; [|auto]. apply key_eqb_eq in K. subst k. injection E as <-. right. left. reflexivity.
Qed.
Lemma loop_same me t rest : forall new d, fst (fst (update_loop me t rest new d)) = d.
Proof. induction rest as [|n rest IH]; intros new d; cbn [update_loop]; [destruct new; reflexivity|]. destruct (dmem _ _ _); [apply IH|]. destruct (n =? me); [apply IH|reflexivity]. Qed.
Lemma start_same me t rest : forall d, fst (fst (start_loop me t rest d)) = d.
Proof. induction rest as [|n rest IH]; intros d; cbn [start_loop]; [reflexivity|]. destruct (n =? me); [apply IH|reflexivity]. Qed.
Lemma loaded_same me t k nodes d : fst (fst (loaded me t k nodes d)) = d. Proof. destruct k; [reflexivity|apply loop_same|apply start_same]. Qed.
Lemma caps_same me t n root ep last got k d : fst (fst (caps me t n root ep last got k d)) = d. Proof. unfold caps. destruct (ep <=? last); [reflexivity|apply loaded_same]. Qed.
Lemma each_same t rest size d : fst (fst (start_each t rest size d)) = d. Proof. unfold start_each. destruct (Nat.eqb _ _); [destruct rest|]; reflexivity. Qed.
Lemma resume_source me t p a d g : aresume me t p a d = Some g -> source t d g.
Proof.
  intros E. destruct p, a; try discriminate E; cbn [aresume] in E; try (injection E as <-); try apply source_then; try (apply source_id; reflexivity).
  - unfold with_list. destruct (map _ _) as [|k rest]; cbn [remove]; [apply source_id, loop_same|]. unfold source. destruct (dmem _ _ _); cbn; intros k' i H; [|auto].
    left. unfold ent in *. rewrite kget_del in H. destruct (key_eqb _ _); [discriminate|exact H].
  - destruct rest as [|k rest]; cbn [remove]; [destruct all; apply source_id; [apply loop_same|reflexivity]|]. unfold source. destruct (dmem _ _ _); cbn; intros k' i H; [|auto].
    left. unfold ent in *. rewrite kget_del in H. destruct (key_eqb _ _); [discriminate|exact H].
  - apply source_id, loop_same.
  - unfold with_info. destruct (new_node _) as [c|e]; [|apply source_id; reflexivity]. 
    set (o := mkO _ _ _ _ _ _ _ _). destruct (put t o d) as [d' w] eqn:P. assert (Q : d' = fst (put t o d) /\ w = snd (put t o d)) by (rewrite P; auto). destruct Q as [-> ->].
    destruct (supports c 96); [|apply source_put, source_id, loaded_same]. intros k' i H. cbn [fst snd] in *. destruct (source_put t o d (fst (put t o d), [OQuery t (QCount n)], PEnd (Ok RNone)) (source_id _ _ _ eq_refl) k' i H); auto.
  - apply source_id, caps_same.
  - unfold with_cap. destruct (new_node _) as [c|e]; [|apply source_id; reflexivity].
    set (o := mkO _ _ _ _ _ _ _ _). destruct (put t o d) as [d' w] eqn:P. assert (Q : d' = fst (put t o d) /\ w = snd (put t o d)) by (rewrite P; auto). destruct Q as [-> ->].
    apply source_put, source_id, caps_same.
  - apply source_id. destruct new; reflexivity.
  - apply source_id. destruct rest; reflexivity.
  - apply source_id, start_same.
  - apply source_id, each_same.
  - apply source_id, each_same.
  - destruct (int_is _ 6); [destruct (int_is _ 0)|]; injection E as <-; apply source_id; reflexivity.
Qed.

(** ** executions *)
Definition settled (s : app) (tr : list aobs) : Prop := forall k i, entry s k = Some i ->
  exists t c p, In (OPut t k i) tr /\ nth_error (a_tasks s) t = Some (mkAT c p) /\ (In (OTell t (WAdded i)) tr \/ pending p i).
Lemma settled_exec es s tr : aexec app0 es s tr -> settled s tr.
Proof.
  induction 1 as [|es s tr e s' os X IH S]; [intros k i H; discriminate|]. apply astep_case in S. destruct S as [z|c' d os p' E|u c' q a d os p' N' E|u c' q e N' NE]; intros k i H.
  - rewrite app_nil_r. exact (IH k i H).
  - pose proof (start_keeps (a_me s) (length (a_tasks s)) c' (tabs_of s)) as K. rewrite E in K. cbn in K. subst d. destruct (IH k i H) as (t & c & p & P & N & D). exists t, c, p.
    split; [apply in_or_app; auto|]. split; [cbn; rewrite nth_error_app1; [exact N|]; apply nth_error_Some; congruence|]. destruct D; [left; apply in_or_app; auto|auto].
  - assert (O : exists t, (exists c p, In (OPut t k i) tr /\ nth_error (a_tasks s) t = Some (mkAT c p) /\ (In (OTell t (WAdded i)) tr \/ pending p i)) \/ (t = u /\ In (OPut u k i) os)).
    { destruct (resume_source _ _ _ _ _ _ E k i H) as [H'|P]; [|exists u; auto]. destruct (IH k i H') as (t & R). exists t. left. exact R. }
    destruct O as (t & [(c & p & P & N & D)|[-> P]]).
    + exists t, c. cbn [a_tasks]. rewrite (nth_upd' _ _ _ _ N'). destruct (Nat.eqb_spec t u) as [->|NE].
      * rewrite N' in N. injection N as -> ->. exists p'. split; [apply in_or_app; auto|]. split; [reflexivity|]. destruct D as [D|D]; [left; apply in_or_app; auto|].
        destruct (resume_keeps _ _ _ _ _ _ E i k (or_introl D) H); [left; apply in_or_app; auto|auto].
      * exists p. split; [apply in_or_app; auto|]. split; [exact N|]. destruct D as [D|D]; [left; apply in_or_app; auto|auto].
    + exists u, c', p'. cbn [a_tasks]. rewrite (nth_upd' _ _ _ _ N'), Nat.eqb_refl. split; [apply in_or_app; auto|]. split; [reflexivity|].
      destruct (resume_keeps _ _ _ _ _ _ E i k (or_intror (ex_intro _ k P)) H); [left; apply in_or_app; auto|auto].
  - destruct (IH k i H) as (t & c & p & P & N & D). exists t, c. cbn [a_tasks]. rewrite (nth_upd' _ _ _ _ N'). destruct (Nat.eqb_spec t u) as [->|NE'].
    + rewrite N' in N. injection N as -> ->. exists (PEnd (Err e)). split; [apply in_or_app; auto|]. split; [reflexivity|]. right. exact I.
    + exists p. split; [apply in_or_app; auto|]. split; [exact N|]. destruct D as [D|D]; [left; apply in_or_app; auto|auto].
Qed.

(** ** only loadNode returns nodes *)
Definition gives (c : acall) (g : ago) : Prop := forall l, snd g = PEnd (Ok (RNodes l)) -> exists n, c = ALoad n.
Lemma gives_then c os g : gives c g -> gives c (obs_then os g). Proof. destruct g as [[d os'] p]. exact (fun H => H). Qed.
Lemma gives_loop c me t rest : forall new d, gives c (update_loop me t rest new d).
Proof. induction rest as [|n rest IH]; intros new d; cbn [update_loop]; [destruct new; intros l H; discriminate|]. destruct (dmem _ _ _); [apply IH|]. destruct (n =? me); [apply IH|intros l H; discriminate]. Qed.
Lemma gives_start c me t rest : forall d, gives c (start_loop me t rest d).
Proof. induction rest as [|n rest IH]; intros d; cbn [start_loop]; [intros l H; discriminate|]. destruct (n =? me); [apply IH|intros l H; discriminate]. Qed.
Lemma gives_loaded c me t k nodes d : kfits c k = true -> gives c (loaded me t k nodes d).
Proof. destruct k; intros F; [|apply gives_loop|apply gives_start]. intros l _. destruct c; try discriminate F. eauto. Qed.
Lemma gives_caps c me t n root ep last got k d : kfits c k = true -> gives c (caps me t n root ep last got k d).
Proof. intros F. unfold caps. destruct (ep <=? last); [intros l H; discriminate|apply gives_loaded, F]. Qed.
Lemma gives_each c t rest size d : gives c (start_each t rest size d). Proof. unfold start_each. destruct (Nat.eqb _ _); [destruct rest|]; intros l H; discriminate. Qed.
Lemma gives_remove c me t rest all l d : gives c (remove me t rest all l d).
Proof. destruct rest as [|k rest]; cbn [remove]; [destruct all; [apply gives_loop|intros x H; discriminate]|]. destruct (dmem _ _ _); intros x H; discriminate. Qed.
Lemma gives_resume c me t p a d g : fits c p = true -> aresume me t p a d = Some g -> gives c g.
Proof.
  intros F E. destruct p, a; try discriminate E; cbn [aresume] in E; try (injection E as <-); try apply gives_then; try (intros x H; discriminate H).
  - apply gives_remove.
  - apply gives_remove.
  - apply gives_loop.
  - unfold with_info. destruct (new_node _) as [x|e]; [|intros y H; discriminate]. destruct (put _ _ _) as [d' w]. destruct (supports x 96); [intros y H; discriminate|]. apply gives_then, gives_loaded, F.
  - apply gives_caps, F.
  - unfold with_cap. destruct (new_node _) as [x|e]; [|intros y H; discriminate]. destruct (put _ _ _) as [d' w]. apply gives_then, gives_caps, F.
  - destruct new; intros x H; discriminate.
  - destruct rest; intros x H; discriminate.
  - apply gives_start.
  - apply gives_each.
  - apply gives_each.
  - destruct (int_is _ 6); [destruct (int_is _ 0)|]; injection E as <-; intros x H; discriminate.
Qed.
Lemma gives_exec es s tr : aexec app0 es s tr -> forall t c l, nth_error (a_tasks s) t = Some (mkAT c (PEnd (Ok (RNodes l)))) -> exists n, c = ALoad n.
Proof.
  induction 1 as [|es s tr e s' os X IH S]; [intros [|t] c l H; discriminate|]. pose proof (wf_exec _ _ _ _ X wf0) as W. apply astep_case in S. destruct S as [z|c' d os p' E|u c' q a d os p' N' E|u c' q e N' NE]; cbn [a_tasks]; intros t c l.
  - apply IH.
  - rewrite nth_snoc'. destruct (Nat.eqb t _); [|apply IH]. intros H. injection H as <- ->. destruct c'; cbn [astart] in E; try discriminate E; [eauto| |].
    + unfold start_message in E. destruct (match ep with Some _ => _ | None => _ end); [discriminate E|]. destruct (root =? _); discriminate E.
    + unfold start_unhandled in E. destruct (is_msg _ _); [|discriminate E]. destruct (is_msg _ _); [discriminate E|]. destruct (is_msg _ _); [discriminate E|]. destruct (getattr m "command"); discriminate E.
  - rewrite (nth_upd' _ _ _ _ N'). destruct (Nat.eqb t u); [|apply IH]. intros H. injection H as <- ->. exact (gives_resume _ _ _ _ _ _ _ (wf_fits _ W _ _ _ N') E l eq_refl).
  - rewrite (nth_upd' _ _ _ _ N'). destruct (Nat.eqb t u); [|apply IH]. intros H. discriminate.
Qed.
Theorem announced es s tr k i : aexec app0 es s tr -> entry s k = Some i ->
  exists t c, In (OCalled t c) tr /\ In (OPut t k i) tr /\ ((exists n, c = ALoad n) \/ forall v, In (ODone t (Ok v)) tr -> In (OTell t (WAdded i)) tr).
Proof.
  intros X H. destruct (settled_exec _ _ _ X k i H) as (t & c & p & P & N & D). exists t, c. destruct (calls_exec _ _ _ _ X) as (_ & _ & _ & _ & C).
  split; [exact (C t c p (Nat.le_0_l t) N)|]. split; [exact P|].
  assert (L : (exists n, c = ALoad n) \/ forall l, p <> PEnd (Ok (RNodes l))).
  { destruct p; try (right; discriminate). destruct r as [[| |l]|]; try (right; discriminate). left. exact (gives_exec _ _ _ X _ _ _ N). }
  destruct L as [L|L]; [auto|right]. intros v J. destruct D as [D|D]; [exact D|]. destruct (done_exec _ _ _ _ X _ _ J) as (c' & N'). rewrite N in N'. injection N' as -> ->. destruct v; [destruct D|destruct D|destruct (L l eq_refl)].
Qed.
