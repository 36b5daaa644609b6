(** Overlapping node list updates (C70). *)
From Coq Require Import String ZArith List Bool Lia.
From Verif Require Import Py Schema Registry Codec Waiter Conn NodeM NodeProofs AppM SpecApp AppProofs AppUpdate.
Import ListNotations.
Open Scope list_scope.
Open Scope string_scope.
Open Scope list_scope.
Open Scope Z_scope.

(** ** the errors *)
(** a turn of an update: how it ends, and what it deletes *)
Definition fine (t : nat) (C : option (list Z)) (g : ago) (d : tabs) : Prop :=
  let '(d', os, p) := g in
  (forall k, ent d k <> None -> ent d' k = None -> In (ODel t k) os) /\
  (match p with PEnd (Err e) => (exists cls, C = Some cls /\ new_node cls = Err e) | PRemoved _ _ _ => False | _ => True end).
Lemma fine_then t C os g d : fine t C g d -> fine t C (obs_then os g) d.
Proof. destruct g as [[d' os'] p]. intros [A B]. split; [|exact B]. intros k E E'. apply in_or_app. right. exact (A k E E'). Qed.
Lemma fine_from t C g d d0 : (forall k, ent d0 k <> None -> ent d k <> None) -> fine t C g d -> fine t C g d0.
Proof. destruct g as [[d' os] p]. intros I [A B]. split; [|exact B]. intros k E E'. exact (A k (I k E) E'). Qed.
Ltac fn := split; [let k := fresh in intros k ? ?; congruence|try exact I].
Lemma fine_update me t C rest : forall new d, fine t C (update_loop me t rest new d) d.
Proof. induction rest as [|n rest IH]; intros new d; cbn [update_loop]; [destruct new; fn|]. destruct (dmem _ _ _); [apply IH|]. destruct (n =? me); [apply IH|fn]. Qed.
Lemma fine_start me t C rest : forall d, fine t C (start_loop me t rest d) d.
Proof. induction rest as [|n rest IH]; intros d; cbn [start_loop]; [fn|]. destruct (n =? me); [apply IH|fn]. Qed.
Lemma fine_loaded me t C k nodes d : fine t C (loaded me t k nodes d) d.
Proof. destruct k; [fn|apply fine_update|apply fine_start]. Qed.
Lemma fine_caps me t C n root ep last got k d : fine t C (caps me t n root ep last got k d) d.
Proof. unfold caps. destruct (ep <=? last); [fn|apply fine_loaded]. Qed.
Lemma put_more t o d k : ent d k <> None -> ent (fst (put t o d)) k <> None.
Proof. rewrite ent_put. destruct (key_eqb k (o_key o)); [discriminate|auto]. Qed.
Lemma fine_info me t n cls bas gen spc lis k d : fine t (Some cls) (with_info me t n cls bas gen spc lis k d) d.
Proof.
  unfold with_info. destruct (new_node cls) as [c|e] eqn:NN; [|fn; exists cls; split; [reflexivity|exact NN]].
  pose proof (put_more t (mkO n 0 c bas gen spc lis None) d) as M. destruct (put t _ d) as [d' o]. cbn [fst] in M. destruct (supports c 96).
  - split; [|exact I]. intros x E E'. exfalso. exact (M x E E').
  - apply (fine_then t _ [_]). apply (fine_from _ _ _ d' d M). apply fine_loaded.
Qed.
Lemma fine_cap me t n root ep last got cls gen spc k d : fine t (Some cls) (with_cap me t n root ep last got cls gen spc k d) d.
Proof.
  unfold with_cap. destruct (new_node cls) as [c|e] eqn:NN; [|fn; exists cls; split; [reflexivity|exact NN]].
  pose proof (put_more t (mkO n ep c 0 gen spc false (Some root)) d) as M. destruct (put t _ d) as [d' o]. cbn [fst] in M.
  apply (fine_then t _ [_]). apply (fine_from _ _ _ d' d M). apply fine_caps.
Qed.
Lemma fine_remove me t rest all l d : NoDup rest ->
  let '(d', os, p) := remove me t rest all l d in
  (forall k, ent d k <> None -> ent d' k = None -> In (ODel t k) os) /\
  match p with
  | PEnd (Err e) => e = EKey /\ exists k, In k rest /\ ent d k = None
  | PRemoved rest' _ l' => l' = l /\ NoDup rest' /\ exists k, rest = k :: rest' /\ os = [ODel t k; OTell t (WRemoved k)] /\ d' = (ddel key_eqb k (fst d), snd d)
  | _ => True
  end.
Proof.
  intros ND. destruct rest as [|k rest]; cbn [remove].
  - destruct all; [|fn]. pose proof (fine_update me t None l [] d) as F. destruct (update_loop me t l [] d) as [[d' os] p]. destruct F as [A B]. split; [exact A|]. destruct p; try exact I; [destruct B|]. destruct r; [exact I|]. destruct B as (cls & Q & _). discriminate.
  - destruct (dmem key_eqb k (fst d)) eqn:M; cbn.
    + split; [|inversion ND; eauto 6]. intros k' E E'. unfold ent in E'. cbn [fst] in E'. rewrite kget_del in E'. destruct (key_eqb k' k) eqn:Q; [apply key_eqb_eq in Q; subst; auto|]. contradiction.
    + split; [congruence|]. split; [reflexivity|]. exists k. split; [left; reflexivity|]. rewrite kmem_get in M. unfold ent. destruct (dget key_eqb k (fst d)); [discriminate|reflexivity].
Qed.

(** whatever disappears from the table in a turn was deleted by the task of the turn *)
Definition tells (t : nat) (d : tabs) (g : ago) : Prop := forall k, ent d k <> None -> ent (fst (fst g)) k = None -> In (ODel t k) (snd (fst g)).
Lemma fine_tells t C g d : fine t C g d -> tells t d g.
Proof. destruct g as [[d' os] p]. intros [A _]. exact A. Qed.
Lemma remove_tells me t rest all l d : tells t d (remove me t rest all l d).
Proof.
  destruct rest as [|k rest]; cbn [remove].
  - destruct all; [apply (fine_tells _ None), fine_update|]. intros k9 E E'. cbn in E'. congruence.
  - destruct (dmem key_eqb k (fst d)); intros k' E E'; cbn in *; [|congruence]. unfold ent in E'. cbn [fst] in E'. rewrite kget_del in E'. destruct (key_eqb k' k) eqn:Q; [apply key_eqb_eq in Q; subst; auto|]. contradiction.
Qed.
Lemma same_tells t d os p : tells t d (d, os, p).
Proof. intros k E E'. cbn in E'. congruence. Qed.
Lemma resume_tells me t p a d g : aresume me t p a d = Some g -> tells t d g.
Proof.
  intros E. destruct p, a; try discriminate E; cbn [aresume] in E.
  all: try (injection E as <-).
  all: try apply same_tells.
  all: try apply remove_tells.
  all: try (eapply fine_tells; try apply fine_then; first [apply (fine_update _ _ None)|apply fine_info|apply (fine_caps _ _ None)|apply fine_cap|apply (fine_start _ _ None)]).
  - unfold with_list. fold (gone d l). pose proof (remove_tells me t (gone d l) (gone d l) l d) as R. destruct (remove _ _ _ _ _ _) as [[d' os'] p']. intros k0 E0 E0'. right. exact (R k0 E0 E0').
  - destruct new; apply same_tells.
  - destruct rest; apply same_tells.
  - unfold start_each. destruct (Nat.eqb _ _); [destruct (map _ _)|]; apply same_tells.
  - unfold start_each. destruct (Nat.eqb _ _); [destruct rest|]; apply same_tells.
  - destruct (int_is _ _); [destruct (int_is _ _)|]; injection E as <-; apply same_tells.
Qed.

(** keys a task still wants to delete are there, or were deleted by another task since it got its list *)
Definition awaited (t : nat) (tr : list aobs) (rest : list key) (l : list Z) (d : tabs) : Prop :=
  NoDup rest /\ exists x y, tr = x ++ OAnswer t QNodes (ANodes l) :: y /\ forall k, In k rest -> ent d k <> None \/ exists u, u <> t /\ In (ODel u k) y.
Lemma awaited_more t tr rest l d os d' : awaited t tr rest l d -> (forall k, ent d k <> None -> ent d' k = None -> exists u, u <> t /\ In (ODel u k) os) -> awaited t (tr ++ os) rest l d'.
Proof.
  intros (ND & x & y & -> & A) M. split; [exact ND|]. exists x, (y ++ os). split; [rewrite <- app_assoc; reflexivity|]. intros k J. destruct (ent d' k) eqn:E'; [left; discriminate|].
  destruct (A k J) as [E|(u & N & D)]; [|right; exists u; split; [exact N|apply in_or_app; auto]]. destruct (M k E E') as (u & N & D). right. exists u. split; [exact N|]. apply in_or_app. auto.
Qed.
(** reasons for an error *)
Definition reported (t : nat) (tr : list aobs) (cls : list Z) : Prop :=
  (exists n bas gen spc lis, In (OAnswer t (QInfo n) (AInfo cls bas gen spc lis)) tr) \/ exists n ep gen spc, In (OAnswer t (QCap n ep) (ACap cls gen spc)) tr.
Lemma reported_more t tr os cls : reported t tr cls -> reported t (tr ++ os) cls.
Proof. intros [(n & b & g & sp & li & H)|(n & ep & g & sp & H)]; [left; exists n, b, g, sp, li|right; exists n, ep, g, sp]; apply in_or_app; auto. Qed.
Lemma new_node_err cls e : new_node cls = Err e -> e = EIndex /\ last cls 0 = 241.
Proof.
  intros E. destruct (Z.eq_dec (last cls 0) 241) as [L|L]; [|apply new_node_ok in L; destruct L; congruence].
  pose proof (nif_fails cls true false (mkCls [] []) L) as F. unfold new_node in E. split; [congruence|exact L].
Qed.
Definition excuse (t : nat) (es : list aevent) (tr : list aobs) (e : exn) : Prop :=
  In (EAnswer t (Err e)) es \/ (e = EIndex /\ exists cls, reported t tr cls /\ last cls 0 = 241) \/
  (e = EKey /\ exists x l y k u, tr = x ++ OAnswer t QNodes (ANodes l) :: y /\ u <> t /\ In (ODel u k) y /\ ~ In (fst k) l).
Lemma excuse_more t es tr e es' os : excuse t es tr e -> excuse t (es ++ es') (tr ++ os) e.
Proof.
  intros [A|[(-> & cls & A & B)|(-> & x & l & y & k & u & -> & N & D & L)]]; [left; apply in_or_app; auto|right; left; split; [reflexivity|]; exists cls; split; [apply reported_more; exact A|exact B]|]. right. right. split; [reflexivity|]. exists x, l, (y ++ os), k, u. rewrite <- app_assoc. split; [reflexivity|]. split; [exact N|]. split; [apply in_or_app; auto|exact L].
Qed.
Lemma error_exec es s tr : aexec app0 es s tr -> forall t p, nth_error (a_tasks s) t = Some (mkAT AUpdate p) ->
  match p with PEnd (Err e) => excuse t es tr e | PRemoved rest _ l => awaited t tr rest l (tabs_of s) /\ forall k, In k rest -> ~ In (fst k) l | _ => True end.
Proof.
  induction 1 as [|es s tr e s' os X IH S]; [intros [|t] p N; discriminate|]. intros t p N. pose proof (wf_exec _ _ _ _ X wf0) as [WT WF]. apply astep_case in S.
  destruct S as [z|c d os q E|u c q a d os q' N' E|u c q x N' NE].
  - cbn [a_tasks] in N. specialize (IH t p N). rewrite app_nil_r. change (tabs_of _) with (tabs_of s). destruct p; try exact I; [exact IH|]. destruct r; [exact I|]. pose proof (excuse_more t es tr e [EMe z] [] IH) as Q. rewrite app_nil_r in Q. exact Q.
  - pose proof (start_keeps (a_me s) (length (a_tasks s)) c (tabs_of s)) as K. rewrite E in K. cbn in K. subst d. cbn [a_tasks] in N. rewrite nth_snoc' in N. destruct (Nat.eqb_spec t (length (a_tasks s))).
    + injection N as -> ->. cbn in E. injection E as <- <-. exact I.
    + specialize (IH t p N). change (tabs_of (mkA _ _ _ _)) with (tabs_of s). destruct p; try exact I; [|destruct r; [exact I|]; apply excuse_more; exact IH]. destruct IH as [A B]. split; [|exact B]. apply (awaited_more t tr rest l (tabs_of s)); [exact A|congruence].
  - assert (ED : tabs_of (mkA (a_me s) (fst d) (snd d) (upd u (mkAT c q') (a_tasks s))) = d) by (destruct d; reflexivity). rewrite ED. cbn [a_tasks] in N. rewrite (nth_upd' _ _ _ _ N') in N. destruct (Nat.eqb_spec t u) as [->|NU].
    + injection N as -> ->. specialize (IH u q N'). clear ED. pose proof (WF _ _ _ N') as FT.
      assert (FINE : forall C, fine u C (d, os, p) (tabs_of s) -> (forall cls, C = Some cls -> reported u os cls) -> match p with PEnd (Err e) => excuse u (es ++ [EAnswer u (Ok a)]) (tr ++ os) e | PRemoved rest _ l => awaited u (tr ++ os) rest l d /\ forall k, In k rest -> ~ In (fst k) l | _ => True end).
      { intros C [_ B] RC. destruct p; try exact I; [destruct B|]. destruct r; [exact I|]. right. left. destruct B as (cls & EC & NN). apply new_node_err in NN. destruct NN as [-> L]. split; [reflexivity|]. exists cls. split; [|exact L].
        destruct (RC cls EC) as [(n & b & g & sp & li & H)|(n & ep & g & sp & H)]; [left; exists n, b, g, sp, li|right; exists n, ep, g, sp]; apply in_or_app; auto. }
      destruct q, a; try discriminate E; cbn [fits kfits] in FT; try discriminate FT; cbn [aresume] in E; injection E as E; 
        try (apply (FINE None); [|discriminate]; rewrite <- E; try apply fine_then; first [apply fine_update|apply fine_caps|destruct new; fn|destruct rest; fn]);
        try (apply (FINE (Some cls)); [rewrite <- E; apply fine_then; first [apply fine_info|apply fine_cap]|];
             intros cls' EC; injection EC as <-; apply (f_equal (fun g => snd (fst g))) in E; cbn [fst snd] in E; rewrite <- E;
             match goal with |- context [obs_then _ ?g] => destruct g as [[d9 os9] p9] end; cbn [obs_then fst snd]; unfold reported; cbn [List.app]; first [left; do 5 eexists; left; reflexivity|right; do 4 eexists; left; reflexivity]).
      * unfold with_list in E. fold (gone (tabs_of s) l) in E. pose proof (fine_remove (a_me s) u (gone (tabs_of s) l) (gone (tabs_of s) l) l (tabs_of s) (gone_nodup _ WT l)) as F. destruct (remove _ _ _ _ _ _) as [[d' os'] p']. cbn in E. injection E as <- <- <-. destruct F as [_ F].
        destruct p'; try exact I.
        -- destruct F as (-> & ND & k & EG & -> & ->). split; [|intros k' J; assert (G : In k' (gone (tabs_of s) l)) by (rewrite EG; right; exact J); apply (gone_spec _ WT) in G; tauto].
           split; [exact ND|]. exists tr, [ODel u k; OTell u (WRemoved k)]. split; [reflexivity|]. intros k' J. left. unfold ent. cbn [fst]. rewrite kget_del.
           assert (k' <> k) by (intros ->; pose proof (gone_nodup _ WT l) as G; rewrite EG in G; inversion G; contradiction). rewrite key_eqb_neq by assumption.
           assert (G : In k' (gone (tabs_of s) l)) by (rewrite EG; right; exact J). apply (gone_spec _ WT) in G. apply G.
        -- destruct r; [exact I|]. destruct F as (-> & k & J & EN). exfalso. apply (gone_spec _ WT) in J. tauto.
      * destruct IH as [(ND & y0 & y & -> & AW) NL]. pose proof (fine_remove (a_me s) u rest all l (tabs_of s) ND) as F. destruct (remove _ _ _ _ _ _) as [[d' os'] p']. injection E as <- <- <-. destruct F as [_ F]. destruct p'; try exact I.
        -- destruct F as (-> & ND' & k & -> & -> & ->). split; [|intros k' J; apply NL; right; exact J]. split; [exact ND'|]. exists y0, (y ++ [ODel u k; OTell u (WRemoved k)]). split; [rewrite <- app_assoc; reflexivity|].
           intros k' J. unfold ent. cbn [fst]. rewrite kget_del. assert (k' <> k) by (intros ->; inversion ND; contradiction). rewrite key_eqb_neq by assumption.
           destruct (AW k' (or_intror J)) as [Q|(w & Q1 & Q2)]; [left; exact Q|]. right. exists w. split; [exact Q1|]. apply in_or_app. auto.
        -- destruct r; [exact I|]. destruct F as (-> & k & J & EN). right. right. split; [reflexivity|]. destruct (AW k J) as [Q|(w & Q1 & Q2)]; [contradiction|].
           exists y0, l, (y ++ os'), k, w. split; [rewrite <- app_assoc; reflexivity|]. split; [exact Q1|]. split; [apply in_or_app; auto|apply NL; exact J].
    + specialize (IH t p N). destruct p; try exact I; [|destruct r; [exact I|]; apply excuse_more; exact IH]. destruct IH as [A B]. split; [|exact B]. apply (awaited_more t tr rest l (tabs_of s)); [exact A|].
      intros k E1 E2. exists u. split; [congruence|].
      exact (resume_tells _ _ _ _ _ _ E k E1 E2).
  - cbn [a_tasks] in N. change (tabs_of (mkA _ _ _ _)) with (tabs_of s). rewrite (nth_upd' _ _ _ _ N') in N. destruct (Nat.eqb_spec t u) as [->|NU].
    + injection N as -> <-. left. apply in_or_app. right. left. reflexivity.
    + specialize (IH t p N). destruct p; try exact I; [|destruct r; [exact I|]; apply excuse_more; exact IH]. destruct IH as [A B]. split; [|exact B]. apply (awaited_more t tr rest l (tabs_of s)); [exact A|congruence].
Qed.
Lemma update_errors es s tr t e : aexec app0 es s tr -> In (OCalled t AUpdate) tr -> In (ODone t (Err e)) tr ->
  In (EAnswer t (Err e)) es \/
  (e = EIndex /\ exists cls, last cls 0 = 241 /\ ((exists n bas gen spc lis, In (OAnswer t (QInfo n) (AInfo cls bas gen spc lis)) tr) \/ exists n ep gen spc, In (OAnswer t (QCap n ep) (ACap cls gen spc)) tr)) \/
  (e = EKey /\ exists x l y k u, tr = x ++ OAnswer t QNodes (ANodes l) :: y /\ u <> t /\ In (ODel u k) y /\ ~ In (fst k) l).
Proof.
  intros X C D. destruct (done_exec _ _ _ _ X _ _ D) as (c & N). destruct (calls_exec _ _ _ _ X) as (_ & _ & _ & Q & _). destruct (Q _ _ C) as (_ & p & N'). rewrite N in N'. injection N' as -> <-.
  destruct (error_exec _ _ _ X t _ N) as [A|[(-> & cls & A & B)|A]]; eauto 8.
Qed.

(** ** updates that see the same list *)
Section Same.
Variables (l : list Z) (me : Z).
Definition same (l' : list Z) : Prop := forall r, In r l' <-> In r l.
(** a step of an update that sees [l] never removes a key of a listed node and only adds keys of listed nodes *)
Definition better (d d' : tabs) : Prop := (forall k, ent d k <> None -> In (fst k) l -> ent d' k <> None) /\ (forall k, ent d' k <> None -> ent d k <> None \/ (In (fst k) l /\ fst k <> me)).
Lemma better_refl d : better d d. Proof. split; auto. Qed.
Lemma better_trans d d' d'' : better d d' -> better d' d'' -> better d d''.
Proof. intros [A B] [A' B']. split; [auto|]. intros k E. destruct (B' k E) as [E'|E']; auto. Qed.
Definition clean (d : tabs) : Prop := forall k, ent d k <> None -> In (fst k) l.
Definition sub (rest : list Z) : Prop := forall r, In r rest -> In r l.
Definition left_over (d : tabs) (rest : list Z) : Prop := forall r, In r l -> In r rest \/ r = me \/ ent d (r, 0) <> None.
Definition kok (d : tabs) (n : Z) (k : kont) (have : bool) : Prop :=
  clean d /\ In n l /\ n <> me /\ match k with KUpdate rest _ => sub rest /\ left_over d (if have then rest else n :: rest) | _ => False end.
Definition sok (d : tabs) (p : apc) : Prop :=
  match p with
  | PList => True
  | PRemoved rest _ l' => same l' /\ (forall k, In k rest -> ~ In (fst k) l) /\ forall k, ent d k <> None -> In (fst k) l \/ In k rest
  | PRemovedAll l' => same l' /\ clean d
  | PInfo n k => kok d n k false
  | PCount n _ k | PCap n _ _ _ _ k => kok d n k true
  | PAddedAll _ | PAdded _ | PEnd (Ok _) => clean d /\ left_over d []
  | PEnd (Err _) => True
  | _ => False
  end.
Lemma left_better d d' rest : better d d' -> left_over d rest -> left_over d' rest.
Proof. intros [A B] L r J. destruct (L r J) as [H|[H|H]]; auto. Qed.
Lemma clean_better d d' : better d d' -> clean d -> clean d'.
Proof. intros [A B] C k E. destruct (B k E) as [E'|[E' _]]; auto. Qed.
Lemma kok_better d d' n k b : better d d' -> kok d n k b -> kok d' n k b.
Proof.
  intros B (C & J & N & R). split; [exact (clean_better _ _ B C)|]. split; [exact J|]. split; [exact N|]. destruct k; try destruct R. split; [assumption|]. eapply left_better; eassumption.
Qed.
Lemma sok_better d d' p : better d d' -> sok d p -> sok d' p.
Proof.
  intros B H. destruct p; cbn [sok] in *; try exact H; try (eapply kok_better; eassumption).
  - destruct H as (S & N & K). split; [exact S|]. split; [exact N|]. intros k E. destruct B as [_ B]. destruct (B k E) as [E'|[E' _]]; auto.
  - destruct H as (S & C). split; [exact S|exact (clean_better _ _ B C)].
  - destruct H as (C & L). split; [exact (clean_better _ _ B C)|exact (left_better _ _ _ B L)].
  - destruct H as (C & L). split; [exact (clean_better _ _ B C)|exact (left_better _ _ _ B L)].
  - destruct r; [|exact I]. destruct H as (C & L). split; [exact (clean_better _ _ B C)|exact (left_better _ _ _ B L)].
Qed.
Definition good (d : tabs) (g : ago) : Prop := better d (fst (fst g)) /\ sok (fst (fst g)) (snd g).
Lemma good_then d os g : good d g -> good d (obs_then os g). Proof. destruct g as [[d' os'] p]. exact (fun H => H). Qed.
Lemma good_from d d' g : better d d' -> good d' g -> good d g.
Proof. intros B [A S]. split; [eapply better_trans; eassumption|exact S]. Qed.
Lemma good_each t rest d : clean d -> left_over d [] -> good d (announce_each t rest d).
Proof. intros C L. destruct rest; (split; [apply better_refl|exact (conj C L)]). Qed.
Lemma good_loop t rest : forall new d, clean d -> sub rest -> left_over d rest -> good d (update_loop me t rest new d).
Proof.
  induction rest as [|n rest IH]; intros new d C S L; cbn [update_loop].
  - unfold announce. destruct new; [apply good_each; assumption|]. split; [apply better_refl|exact (conj C L)].
  - assert (S' : sub rest) by (intros r J; apply S; right; exact J). rewrite kmem_get. destruct (dget key_eqb (n, 0) (fst d)) eqn:G.
    + apply IH; [exact C|exact S'|]. intros r J. destruct (L r J) as [[<-|H]|H]; auto. right. right. unfold ent. rewrite G. discriminate.
    + destruct (Z.eqb_spec n me) as [EQ|NE].
      * apply IH; [exact C|exact S'|]. intros r J. destruct (L r J) as [[<-|H]|H]; auto.
      * split; [apply better_refl|]. split; [exact C|]. split; [apply S; left; reflexivity|]. split; [exact NE|]. split; [exact S'|exact L].
Qed.
Lemma good_loaded t n k nodes d : kok d n k true -> good d (loaded me t k nodes d).
Proof. intros (C & J & N & R). destruct k as [|rest new|]; try destruct R. apply good_loop; assumption. Qed.
Lemma good_caps t n root ep last got k d : kok d n k true -> good d (caps me t n root ep last got k d).
Proof. intros K. unfold caps. destruct (ep <=? last); [split; [apply better_refl|exact K]|]. eapply good_loaded. exact K. Qed.
Lemma better_put t o d : In (o_root o) l -> o_root o <> me -> better d (fst (put t o d)).
Proof.
  intros J N. split; [intros k E _; apply put_more; exact E|]. intros k E. rewrite ent_put in E. destruct (key_eqb k (o_key o)) eqn:Q; [|auto]. apply key_eqb_eq in Q. subst k. right. split; assumption.
Qed.
Lemma good_info t n cls bas gen spc lis k d : kok d n k false -> good d (with_info me t n cls bas gen spc lis k d).
Proof.
  intros (C & J & N & R). unfold with_info. destruct (new_node cls) as [c|e]; [|split; [apply better_refl|exact I]].
  pose proof (better_put t (mkO n 0 c bas gen spc lis None) d J N) as B.
  assert (K : kok (fst (put t (mkO n 0 c bas gen spc lis None) d)) n k true).
  { split; [exact (clean_better _ _ B C)|]. split; [exact J|]. split; [exact N|]. destruct k as [|rest new|]; [destruct R| |destruct R]. destruct R as [S L]. split; [exact S|]. intros r I. destruct (L r I) as [[<-|H]|[H|H]]; auto.
    - right. right. rewrite ent_put. change (o_key _) with (n, 0). rewrite key_eqb_refl. discriminate.
    - right. right. apply put_more. exact H. }
  destruct (put t _ d) as [d' o]. cbn [fst] in B, K. destruct (supports c 96); [split; [exact B|exact K]|]. apply (good_then d [_]). apply (good_from d d' _ B). eapply good_loaded. exact K.
Qed.
Lemma good_cap t n root ep last got cls gen spc k d : kok d n k true -> good d (with_cap me t n root ep last got cls gen spc k d).
Proof.
  intros K. unfold with_cap. destruct (new_node cls) as [c|e]; [|split; [apply better_refl|exact I]]. destruct K as (C & J & N & R).
  pose proof (better_put t (mkO n ep c 0 gen spc false (Some root)) d J N) as B. pose proof (kok_better _ _ n k true B (conj C (conj J (conj N R)))) as K'.
  destruct (put t _ d) as [d' o]. cbn [fst] in B, K'. apply (good_then d [_]). apply (good_from d d' _ B). apply good_caps. exact K'.
Qed.
Lemma good_remove t rest all l' d : same l' -> (forall k, In k rest -> ~ In (fst k) l) -> (forall k, ent d k <> None -> In (fst k) l \/ In k rest) -> good d (remove me t rest all l' d).
Proof.
  intros S N K. destruct rest as [|k rest]; cbn [remove].
  - assert (C : clean d) by (intros k E; destruct (K k E) as [H|[]]; exact H). destruct all; [|split; [apply better_refl|exact (conj S C)]].
    apply good_loop; [exact C|intros r J; apply S; exact J|intros r J; left; apply S; exact J].
  - rewrite kmem_get. destruct (dget key_eqb k (fst d)) eqn:G; [|split; [apply better_refl|exact I]].
    assert (EQ : forall k', ent (ddel key_eqb k (fst d), snd d) k' = if key_eqb k' k then None else ent d k') by (intros k'; unfold ent; cbn [fst]; apply kget_del).
    split; cbn [fst snd].
    + split; intros k'; rewrite EQ; destruct (key_eqb k' k) eqn:Q; try congruence; auto. apply key_eqb_eq in Q. subst. intros _ J. destruct (N k); [left; reflexivity|exact J].
    + split; [exact S|]. split; [intros k' J; apply N; right; exact J|]. intros k'. rewrite EQ. destruct (key_eqb k' k) eqn:Q; [congruence|]. intros E. destruct (K k' E) as [H|[->|H]]; auto. rewrite key_eqb_refl in Q. discriminate.
Qed.
Lemma good_resume t p a d g : tab_ok d -> fits AUpdate p = true -> sok d p -> aresume me t p a d = Some g ->
  (forall l', In (OAnswer t QNodes (ANodes l')) (snd (fst g)) -> same l') -> good d g.
Proof.
  intros T F S E SL. destruct p, a; try discriminate F; try discriminate E; cbn [aresume] in E; cbn [sok] in S; injection E as E.
  - assert (S' : same l0) by (apply SL; rewrite <- E; destruct (with_list _ _ _ _) as [[d' os'] p']; left; reflexivity). rewrite <- E. apply good_then. unfold with_list. fold (gone d l0).
    apply good_remove; [exact S'| |].
    + intros k J. apply (gone_spec _ T) in J. destruct J as [_ J]. intros J'. apply J. apply S'. exact J'.
    + intros k E'. destruct (in_dec Z.eq_dec (fst k) l) as [J|J]; [left; exact J|]. right. apply (gone_spec _ T). split; [exact E'|]. intros J'. apply J, S', J'.
  - rewrite <- E. apply good_remove; apply S.
  - rewrite <- E. destruct S as [S C]. apply good_loop; [exact C|intros r J; apply S; exact J|intros r J; left; apply S; exact J].
  - rewrite <- E. apply good_then. apply good_info. exact S.
  - rewrite <- E. apply good_then. apply good_caps. exact S.
  - rewrite <- E. apply good_then. apply good_cap. exact S.
  - rewrite <- E. apply good_each; apply S.
  - rewrite <- E. apply good_each; apply S.
Qed.
End Same.
Lemma same_exec es1 s1 a l B : aexec app0 es1 s1 a -> only_updates (a ++ B) B -> one_list B l -> (forall t c, In (OCalled t c) B -> (length (a_tasks s1) <= t)%nat) ->
  forall es s b, aexec s1 es s b -> same_id es -> (forall o, In o b -> In o B) ->
  a_me s = a_me s1 /\ better l (a_me s1) (tabs_of s1) (tabs_of s) /\
  forall t p, (length (a_tasks s1) <= t)%nat -> nth_error (a_tasks s) t = Some (mkAT AUpdate p) -> sok l (a_me s1) (tabs_of s) p.
Proof.
  intros X1 OU OL LB es s b X. induction X as [|es s b e s' os X IH S]; intros SI SB.
  - split; [reflexivity|]. split; [apply better_refl|]. intros t p G N. exfalso. apply nth_error_None in G. congruence.
  - assert (SI' : same_id es) by (intros z J; apply (SI z), in_or_app; auto). destruct (IH SI') as (ME & BT & SK); [intros o J; apply SB, in_or_app; auto|].
    pose proof (aexec_app _ _ _ _ _ _ _ X1 X) as XX. pose proof (wf_exec _ _ _ _ XX wf0) as [WT WF]. destruct (calls_exec _ _ _ _ XX) as (_ & _ & _ & _ & CI).
    apply astep_case in S. destruct S as [z|c d os p E|u c p x d os p' N E|u c p x N NE].
    + exfalso. apply (SI z), in_or_app. right. left. reflexivity.
    + pose proof (start_keeps (a_me s) (length (a_tasks s)) c (tabs_of s)) as K. rewrite E in K. cbn in K. subst d. split; [exact ME|]. change (tabs_of (mkA _ _ _ _)) with (tabs_of s). split; [exact BT|].
      intros t q G N. cbn [a_tasks] in N. rewrite nth_snoc' in N. destruct (Nat.eqb_spec t (length (a_tasks s))); [|exact (SK t q G N)]. injection N as -> ->. cbn in E. injection E as <- <-. exact I.
    + assert (ED : tabs_of (mkA (a_me s) (fst d) (snd d) (upd u (mkAT c p') (a_tasks s))) = d) by (destruct d; reflexivity). rewrite ED. split; [exact ME|].
      pose proof (by_resume _ _ _ _ _ _ E) as BM. unfold by_t in BM. cbn in BM. pose proof (shape_resume _ _ _ _ _ _ E) as (NN & _ & _). cbn in NN.
      destruct (changes c) eqn:CH.
      * assert (Q : c = AUpdate /\ (length (a_tasks s1) <= u)%nat).
        { destruct os as [|o os]; [contradiction|]. apply Forall_inv in BM as MO. apply mine_who in MO. destruct (OU o c) as [Q1 Q2]; [apply SB, in_or_app; right; left; reflexivity| |exact CH|rewrite MO in Q2; eauto].
          rewrite MO. assert (J : In (OCalled u c) (a ++ b)) by (apply (CI u c p); [cbn; lia|exact N]). apply in_app_or in J as [J|J]; apply in_or_app; [auto|right]. apply SB, in_or_app. auto. }
        destruct Q as [-> G]. rewrite ME in E.
        destruct (good_resume l (a_me s1) u p x (tabs_of s) _ WT (WF _ _ _ N) (SK u p G N) E) as [B1 S1].
        { cbn [fst snd]. intros l' J. refine (OL u l' _). apply SB, in_or_app. auto. }
        cbn [fst snd] in B1, S1. split; [eapply better_trans; eassumption|]. intros t q G' N'. cbn [a_tasks] in N'. rewrite (nth_upd' _ _ _ _ N) in N'. destruct (Nat.eqb_spec t u) as [->|NU]; [injection N' as <-; exact S1|].
        apply (sok_better l (a_me s1) _ _ _ B1). exact (SK t q G' N').
      * pose proof (message_keeps _ _ _ _ _ _ _ (WF _ _ _ N) CH E) as K. cbn in K. subst d. split; [exact BT|]. intros t q G' N'. cbn [a_tasks] in N'. rewrite (nth_upd' _ _ _ _ N) in N'. destruct (Nat.eqb_spec t u) as [->|NU]; [|exact (SK t q G' N')].
        injection N' as -> <-. discriminate.
    + split; [exact ME|]. change (tabs_of (mkA _ _ _ _)) with (tabs_of s). split; [exact BT|]. intros t q G' N'. cbn [a_tasks] in N'. rewrite (nth_upd' _ _ _ _ N) in N'. destruct (Nat.eqb_spec t u) as [->|NU]; [injection N' as -> <-; exact I|exact (SK t q G' N')].
Qed.
Lemma updates_agree es1 s1 a es s b l t v : aexec app0 es1 s1 a -> aexec s1 es s b -> same_id es -> only_updates (a ++ b) b -> one_list b l ->
  In (OCalled t AUpdate) b -> In (ODone t (Ok v)) b ->
  (forall r, entry s (r, 0) <> None <-> In r l /\ (entry s1 (r, 0) <> None \/ r <> a_me s1)) /\
  (forall k, entry s k <> None -> In (fst k) l) /\ (forall k, In (fst k) l -> entry s1 k <> None -> entry s k <> None).
Proof.
  intros X1 X SI OU OL C D. destruct (calls_exec _ _ _ _ X) as (_ & _ & _ & CC & _).
  destruct (same_exec es1 s1 a l b X1 OU OL (fun t c J => proj1 (CC t c J)) es s b X SI (fun o J => J)) as (ME & [B1 B2] & SK).
  destruct (CC _ _ C) as (G & p & N). destruct (done_exec _ _ _ _ X _ _ D) as (c & N'). rewrite N in N'. injection N' as <- ->. destruct (SK _ _ G N) as [CL LO]. cbn in CL, LO.
  split; [|split; [exact CL|intros k J E; exact (B1 k E J)]]. intros r. split.
  - intros E. split; [exact (CL (r, 0) E)|]. destruct (B2 (r, 0) E) as [Q|[_ Q]]; [left; exact Q|right; exact Q].
  - intros [J [E|NE]]; [exact (B1 (r, 0) E J)|]. destruct (LO r J) as [[]|[Q|Q]]; [contradiction|exact Q].
Qed.
