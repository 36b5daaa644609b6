(** Invariant of the acknowledgement bookkeeping (C24-C29). *)
From Coq Require Import String ZArith List Bool Lia ZifyBool ZifyNat.
From Verif Require Import Py Schema Registry Codec Waiter Conn SpecConn ConnLemmas ConnPacket.
Import ListNotations.
Open Scope list_scope.
Open Scope string_scope.
Open Scope list_scope.
Open Scope Z_scope.

Lemma always_nil P : always P []. Proof. intros [] x b E; discriminate. Qed.
Lemma app_cons_split {A} (l1 l2 : list A) : forall a x b, l1 ++ l2 = a ++ x :: b ->
  (exists b', l1 = a ++ x :: b' /\ b = b' ++ l2) \/ (exists a', a = l1 ++ a' /\ l2 = a' ++ x :: b).
Proof.
  induction l1 as [|y l1 IH]; intros a x b E; cbn in E; [right; exists a; auto|].
  destruct a as [|z a]; cbn in E; injection E as -> E; [left; exists l1; auto|].
  destruct (IH _ _ _ E) as [(b' & -> & ->)|(a' & -> & E')]; [left; exists b'; auto|right; exists a'; auto].
Qed.
Lemma always_app (P : trace -> Z * obs -> Prop) tr new : always P tr -> (forall a x b, new = a ++ x :: b -> P (tr ++ a) x) -> always P (tr ++ new).
Proof. intros A B a x b E. destruct (app_cons_split _ _ _ _ _ E) as [(b' & E1 & _)|(a' & -> & E2)]; [exact (A _ _ _ E1)|exact (B _ _ _ E2)]. Qed.

(** ** the invariant *)
Definition quiet (x : trace) : Prop := forall n o, In (n, o) x -> match o with OCall _ _ | ORearm _ _ => False | _ => True end.
Record ack_task (now : Z) (ackq : list (Z * nat)) (acks : list ack) (tr : trace) (t : nat) (c : call) (aid : nat) (sq dl : Z) (ph : phase) (ses : option nat) : Prop := {
  at_send : sending c = true;
  at_ses : match c with CSend _ _ _ _ => ses = None | CSendRecv _ _ _ _ _ => ses <> None | CWait _ _ => False end;
  at_own : exists n k a, born tr t c n k /\ sq = (k + 1) mod 256 /\ nth_error acks aid = Some a /\
    (a_status a = SReceived -> exists m bs, since tr t (m, ORecv bs) /\ acknowledges bs sq) /\
    (a_status a = SQueued -> exists m bs d, since tr t (m, ORecv bs) /\ announces bs sq d /\ a_delay a = patience d);
  at_key : forall q, In (q, aid) ackq -> q = sq;
  at_dl : armed tr t dl;
  at_ph : ph <> PhWaiting -> dl <= now }.
Record ackinv (now : Z) (ackq : list (Z * nat)) (acks : list ack) (tasks : list task) (tr : trace) : Prop := {
  ia_born : forall t x, nth_error tasks t = Some x -> exists n k, born tr t (t_call x) n k;
  ia_fresh : forall n o, In (n, o) tr -> match o with OCall t _ | ORearm t _ => (t < length tasks)%nat | _ => True end;
  ia_keys : NoDup (map fst ackq);
  ia_vals : NoDup (map snd ackq);
  ia_ackq : forall q i, In (q, i) ackq -> exists a, nth_error acks i = Some a /\ a_status a <> SReceived;
  ia_set : forall i a, nth_error acks i = Some a -> a_set a = true -> a_status a <> SPending;
  ia_task : forall t c aid sq dl ph ses, nth_error tasks t = Some (mkT c (PAck aid sq dl ph ses)) -> ack_task now ackq acks tr t c aid sq dl ph ses;
  ia_inj : forall t t' c c' aid sq sq' dl dl' ph ph' ses ses', nth_error tasks t = Some (mkT c (PAck aid sq dl ph ses)) ->
     nth_error tasks t' = Some (mkT c' (PAck aid sq' dl' ph' ses')) -> t = t' }.
Definition cinv (s : conn) (tr : trace) : Prop := ackinv (c_now s) (c_ackq s) (c_acks s) (c_tasks s) tr.

Lemma armed_app tr x t dl : quiet x -> armed tr t dl -> armed (tr ++ x) t dl.
Proof.
  intros Q [(n & k & c & B & -> & N)|(a & m & d & b & -> & -> & N)]; [left|right].
  - exists n, k, c. split; [apply born_app; exact B|]. split; [reflexivity|]. intros m d I. apply in_app_iff in I as [I|I]; [exact (N _ _ I)|exact (Q _ _ I)].
  - exists a, m, d, (b ++ x). rewrite <- app_assoc. split; [reflexivity|]. split; [reflexivity|]. intros m' d' I. apply in_app_iff in I as [I|I]; [exact (N _ _ I)|exact (Q _ _ I)].
Qed.
(** calls of other tasks do not matter either *)
Lemma armed_call tr x t dl : (forall n o, In (n, o) x -> match o with ORearm t' _ => t' <> t | _ => True end) -> armed tr t dl -> armed (tr ++ x) t dl.
Proof.
  intros Q [(n & k & c & B & -> & N)|(a & m & d & b & -> & -> & N)]; [left|right].
  - exists n, k, c. split; [apply born_app; exact B|]. split; [reflexivity|]. intros m d I. apply in_app_iff in I as [I|I]; [exact (N _ _ I)|exact (Q _ _ I eq_refl)].
  - exists a, m, d, (b ++ x). rewrite <- app_assoc. split; [reflexivity|]. split; [reflexivity|]. intros m' d' I. apply in_app_iff in I as [I|I]; [exact (N _ _ I)|exact (Q _ _ I eq_refl)].
Qed.
Lemma ack_task_tr now ackq acks tr x t c aid sq dl ph ses : (forall n o, In (n, o) x -> match o with ORearm t' _ => t' <> t | _ => True end) ->
  ack_task now ackq acks tr t c aid sq dl ph ses -> ack_task now ackq acks (tr ++ x) t c aid sq dl ph ses.
Proof.
  intros Q [H1 H2 (n & k & a & B & E & G & R1 & R2) H4 H5 H6]. constructor; auto.
  - exists n, k, a. split; [apply born_app; exact B|]. split; [exact E|]. split; [exact G|]. split.
    + intros S. destruct (R1 S) as (m & bs & X & Y). exists m, bs. split; [apply since_app; exact X|exact Y].
    + intros S. destruct (R2 S) as (m & bs & d & X & Y & W). exists m, bs, d. split; [apply since_app; exact X|auto].
  - apply armed_call; assumption.
Qed.
Lemma quiet_rearm x t : quiet x -> forall n o, In (n, o) x -> match o with ORearm t' _ => t' <> t | _ => True end.
Proof. intros Q n o I. specialize (Q n o I). destruct o; auto; contradiction. Qed.

Section Steps.
  Variables (now : Z) (ackq : list (Z * nat)) (acks : list ack) (tasks : list task) (tr : trace).
  Hypothesis I : ackinv now ackq acks tasks tr.

  Lemma inv_trace x : quiet x -> ackinv now ackq acks tasks (tr ++ x).
  Proof.
    intros Q. destruct I. constructor; auto.
    - intros t y E. destruct (ia_born0 t y E) as (n & k & B). exists n, k. apply born_app. exact B.
    - intros n o J. apply in_app_iff in J as [J|J]; [exact (ia_fresh0 n o J)|]. specialize (Q n o J). destruct o; auto; contradiction.
    - intros. apply ack_task_tr; [apply quiet_rearm; exact Q|auto].
  Qed.
  Lemma inv_now now' : now <= now' -> ackinv now' ackq acks tasks tr.
  Proof. intros L. destruct I. constructor; auto. intros t c aid sq dl ph ses E. destruct (ia_task0 _ _ _ _ _ _ _ E). constructor; auto. intros P. specialize (at_ph0 P). lia. Qed.
  Lemma inv_del q : ackinv now (ddel Z.eqb q ackq) acks tasks tr.
  Proof.
    destruct I. constructor; auto using nodup_ddel.
    - intros q' i J. apply in_ddel in J as [J _]. eauto.
    - intros t c aid sq dl ph ses E. destruct (ia_task0 _ _ _ _ _ _ _ E). constructor; auto. intros q' J. apply in_ddel in J as [J _]. auto.
  Qed.
  Lemma inv_pc t x p : nth_error tasks t = Some x -> (forall aid sq dl ph ses, p <> PAck aid sq dl ph ses) -> ackinv now ackq acks (upd t (mkT (t_call x) p) tasks) tr.
  Proof.
    intros E N. destruct I. constructor; auto.
    - intros t' y E'. rewrite nth_upd in E'. destruct (Nat.eqb_spec t t') as [<-|]; [rewrite E in E'; injection E' as <-; exact (ia_born0 _ _ E)|exact (ia_born0 _ _ E')].
    - rewrite upd_length. exact ia_fresh0.
    - intros t' c aid sq dl ph ses E'. rewrite nth_upd in E'. destruct (Nat.eqb_spec t t') as [<-|]; [rewrite E in E'; injection E' as _ ->; elim (N _ _ _ _ _ eq_refl)|eauto].
    - intros t1 t2 c c' aid sq sq' dl dl' ph ph' ses ses' E1 E2. rewrite nth_upd in E1, E2.
      destruct (Nat.eqb_spec t t1) as [<-|]; [rewrite E in E1; injection E1 as _ ->; elim (N _ _ _ _ _ eq_refl)|].
      destruct (Nat.eqb_spec t t2) as [<-|]; [rewrite E in E2; injection E2 as _ ->; elim (N _ _ _ _ _ eq_refl)|]. eauto.
  Qed.
  (** change only deadline and phase of a waiting send *)
  Lemma inv_ph t c aid sq dl ph ses dl' ph' tr' : nth_error tasks t = Some (mkT c (PAck aid sq dl ph ses)) ->
    (forall n o, In (n, o) tr' -> match o with ORearm t' _ => t' = t | OCall _ _ => False | _ => True end) ->
    armed (tr ++ tr') t dl' -> (ph' <> PhWaiting -> dl' <= now) -> ackinv now ackq acks (upd t (mkT c (PAck aid sq dl' ph' ses)) tasks) (tr ++ tr').
  Proof.
    intros E Q A P. destruct I. constructor; auto.
    - intros t' y E'. rewrite nth_upd in E'. destruct (Nat.eqb_spec t t') as [<-|].
      + rewrite E in E'. injection E' as <-. destruct (ia_born0 _ _ E) as (n & k & B). exists n, k. apply born_app. exact B.
      + destruct (ia_born0 _ _ E') as (n' & k & B). exists n', k. apply born_app. exact B.
    - intros n o J. rewrite upd_length. apply in_app_iff in J as [J|J]; [exact (ia_fresh0 n o J)|]. specialize (Q n o J). destruct o; auto; [contradiction|]. subst. exact (nth_lt _ _ _ E).
    - intros t' c' aid' sq' dl1 ph1 ses' E'. rewrite nth_upd in E'. destruct (Nat.eqb_spec t t') as [<-|NE].
      + rewrite E in E'. injection E' as <- <- <- <- <- <-. destruct (ia_task0 _ _ _ _ _ _ _ E). constructor; auto.
        destruct at_own0 as (n & k & a & B & E1 & G & R1 & R2). exists n, k, a. split; [apply born_app; exact B|]. split; [exact E1|]. split; [exact G|]. split.
        * intros S. destruct (R1 S) as (m & bs & X & Y). exists m, bs. split; [apply since_app; exact X|exact Y].
        * intros S. destruct (R2 S) as (m & bs & d & X & Y & W). exists m, bs, d. split; [apply since_app; exact X|auto].
      + apply ack_task_tr; [|eauto]. intros n o J. specialize (Q n o J). destruct o; auto. congruence.
    - intros t1 t2 c1 c2 a0 q1 q2 d1 d2 p1 p2 s1 s2 E1 E2. rewrite nth_upd in E1, E2.
      destruct (Nat.eqb_spec t t1) as [<-|]; destruct (Nat.eqb_spec t t2) as [<-|]; rewrite ?E in *; auto.
      + injection E1 as <- <- <- <- <- <-. symmetry. eapply ia_inj0; eassumption.
      + injection E2 as <- <- <- <- <- <-. eapply ia_inj0; eassumption.
      + eauto.
  Qed.
  (** an acknowledgement or announcement for sequence number [q] *)
  Lemma inv_ack q i a a' ackq' bs : In (q, i) ackq -> nth_error acks i = Some a -> a_set a' = true -> a_status a' <> SPending ->
    (a_status a' = SReceived -> ackq' = ddel Z.eqb q ackq /\ acknowledges bs q) ->
    (a_status a' = SQueued -> ackq' = ackq /\ exists d, announces bs q d /\ a_delay a' = patience d) ->
    ackinv now ackq' (upd i a' acks) tasks (tr ++ [(now, ORecv bs)]).
  Proof.
    intros J E ST NP RC QU. assert (I2 : ackinv now ackq acks tasks (tr ++ [(now, ORecv bs)])).
    { apply inv_trace. intros n o [X|[]]. injection X as <- <-. exact Logic.I. }
    assert (SUB : forall x, In x ackq' -> In x ackq).
    { destruct (a_status a'); [congruence| |]; intros x X; [destruct (QU eq_refl) as [-> _]; exact X|destruct (RC eq_refl) as [-> _]; apply in_ddel in X; tauto]. }
    destruct I2. pose proof (ia_vals _ _ _ _ _ I) as NV.
    assert (NK' : NoDup (map fst ackq') /\ NoDup (map snd ackq')).
    { destruct (a_status a'); [congruence| |]; [destruct (QU eq_refl) as [-> _]; auto|destruct (RC eq_refl) as [-> _]; split; apply nodup_ddel; assumption]. }
    constructor; auto; try tauto.
    - intros q' i' X. rewrite nth_upd. destruct (Nat.eqb_spec i i') as [<-|]; [|eauto]. rewrite E. exists a'. split; [reflexivity|].
      intros S. destruct (RC S) as [-> _]. apply in_ddel in X as [X NQ]. cbn [fst] in NQ. apply NQ.
      assert (G : forall l, NoDup (map snd l) -> In (q', i) l -> In (q, i) l -> q' = q).
      { clear. induction l as [|[k v] l IH]; cbn; [contradiction|]. intros N [A|A] [B|B]; inversion N; subst; auto.
        - congruence. - injection A as -> ->. elim H1. apply (in_map snd) in B. exact B. - injection B as -> ->. elim H1. apply (in_map snd) in A. exact A. }
      eapply G; eassumption.
    - intros i' y X. rewrite nth_upd in X. destruct (Nat.eqb_spec i i') as [<-|]; [rewrite E in X; injection X as <-; auto|eauto].
    - intros t c aid sq dl ph ses X. destruct (ia_task0 _ _ _ _ _ _ _ X). constructor; auto.
      destruct at_own0 as (n & k & b & B & E1 & G & R1 & R2). exists n, k.
      destruct (Nat.eqb_spec i aid) as [<-|NE].
      + rewrite E in G. injection G as <-. exists a'. split; [exact B|]. split; [exact E1|]. split; [rewrite nth_upd, Nat.eqb_refl, E; reflexivity|].
        rewrite <- (at_key0 q J). destruct (ia_task _ _ _ _ _ I _ _ _ _ _ _ _ X). destruct at_own0 as (n' & k' & b' & B' & _).
        assert (S2 : since (tr ++ [(now, ORecv bs)]) t (now, ORecv bs)) by (eapply since_new; [exact B'|left; reflexivity]).
        split.
        * intros S. destruct (RC S) as [_ AK]. exists now, bs. auto.
        * intros S. destruct (QU S) as [_ (d & AN & DL)]. exists now, bs, d. auto.
      + exists b. split; [exact B|]. split; [exact E1|]. split; [rewrite nth_upd_other by exact NE; exact G|]. auto.
  Qed.
  (** the event of a waiting send is cleared *)
  Lemma inv_clear i a : nth_error acks i = Some a -> ackinv now ackq (upd i (mkAck (a_status a) (a_delay a) false) acks) tasks tr.
  Proof.
    intros E. destruct I. constructor; auto.
    - intros q j J. destruct (ia_ackq0 q j J) as (b & G & N). rewrite nth_upd. destruct (Nat.eqb_spec i j) as [<-|]; [|eauto]. rewrite E in *. injection G as <-. eexists. split; [reflexivity|exact N].
    - intros j b G S. rewrite nth_upd in G. destruct (Nat.eqb_spec i j) as [<-|]; [rewrite E in G; injection G as <-; discriminate S|eauto].
    - intros t c aid sq dl ph ses X. destruct (ia_task0 _ _ _ _ _ _ _ X). constructor; auto.
      destruct at_own0 as (n & k & b & B & E1 & G & R1 & R2). exists n, k. rewrite nth_upd.
      destruct (Nat.eqb_spec i aid) as [<-|NE]; [rewrite E in *; injection G as <-; eexists; split; [exact B|]; split; [exact E1|]; split; [reflexivity|]; auto|].
      exists b. auto.
  Qed.
  (** a new call *)
  Lemma inv_call c : ackinv now ackq acks (tasks ++ [mkT c (PDone (RExc EUnmodelled))]) (tr ++ [(now, OCall (length tasks) c)]).
  Proof.
    destruct I. constructor; auto.
    - intros t x E. rewrite nth_snoc in E. destruct (Nat.eqb_spec t (length tasks)) as [->|].
      + injection E as <-. exists now, (sends tr). exists tr, []. auto.
      + destruct (ia_born0 _ _ E) as (n' & k & B). exists n', k. apply born_app. exact B.
    - intros n o J. rewrite app_length. cbn [length]. apply in_app_iff in J as [J|[J|[]]]; [|injection J as <- <-; lia]. specialize (ia_fresh0 n o J). destruct o; auto; lia.
    - intros t c' aid sq dl ph ses E. rewrite nth_snoc in E. destruct (Nat.eqb_spec t (length tasks)); [discriminate|].
      apply ack_task_tr; [|auto]. intros m o [X|[]]. injection X as <- <-. exact Logic.I.
    - intros t t' c1 c2 a q1 q2 d1 d2 p1 p2 s1 s2 E1 E2. rewrite nth_snoc in E1, E2.
      destruct (Nat.eqb_spec t (length tasks)); [discriminate|]. destruct (Nat.eqb_spec t' (length tasks)); [discriminate|]. eauto.
  Qed.
  (** a new waiting send *)
  Lemma inv_send t c p sq dl ph ses : nth_error tasks t = Some (mkT c p) -> (forall aid sq dl ph ses, p <> PAck aid sq dl ph ses) -> dget Z.eqb sq ackq = None ->
    sending c = true -> match c with CSend _ _ _ _ => ses = None | CSendRecv _ _ _ _ _ => ses <> None | CWait _ _ => False end ->
    (exists n k, born tr t c n k /\ sq = (k + 1) mod 256) -> armed tr t dl -> (ph <> PhWaiting -> dl <= now) ->
    ackinv now (dset Z.eqb sq (length acks) ackq) (acks ++ [ack0]) (upd t (mkT c (PAck (length acks) sq dl ph ses)) tasks) tr.
  Proof.
    intros E NP F SC SS (n & k & B & EQ) A P. rewrite dset_fresh by exact F. destruct I.
    assert (LT : forall q i, In (q, i) ackq -> (i < length acks)%nat) by (intros q i J; destruct (ia_ackq0 q i J) as (b & G & _); exact (nth_lt _ _ _ G)).
    assert (LA : forall t c aid sq dl ph ses, nth_error tasks t = Some (mkT c (PAck aid sq dl ph ses)) -> (aid < length acks)%nat).
    { intros t0 c0 aid0 sq0 dl0 ph0 ses0 E0. destruct (ia_task0 _ _ _ _ _ _ _ E0). destruct at_own0 as (_ & _ & b & _ & _ & G & _). exact (nth_lt _ _ _ G). }
    constructor.
    - intros t' y E'. rewrite nth_upd in E'. destruct (Nat.eqb_spec t t') as [<-|]; [rewrite E in E'; injection E' as <-; eauto|eauto].
    - rewrite upd_length. exact ia_fresh0.
    - rewrite map_app. cbn [map fst]. apply nodup_snoc; [assumption|]. apply dget_none. exact F.
    - rewrite map_app. cbn [map snd]. apply nodup_snoc; [assumption|]. intros J. apply in_map_iff in J as ([q i] & X & J). cbn in X. subst i. specialize (LT _ _ J). lia.
    - intros q i J. apply in_app_iff in J as [J|[X|[]]].
      + destruct (ia_ackq0 q i J) as (b & G & N). exists b. split; [|exact N]. rewrite nth_error_app1; [exact G|exact (nth_lt _ _ _ G)].
      + injection X as <- <-. exists ack0. rewrite nth_snoc, Nat.eqb_refl. split; [reflexivity|discriminate].
    - intros i b G S. rewrite nth_snoc in G. destruct (Nat.eqb_spec i (length acks)); [injection G as <-; discriminate S|eauto].
    - intros t' c' aid sq' dl' ph' ses' E'. rewrite nth_upd in E'. destruct (Nat.eqb_spec t t') as [<-|].
      + rewrite E in E'. injection E' as <- <- <- <- <- <-. constructor; auto.
        * exists n, k, ack0. rewrite nth_snoc, Nat.eqb_refl. split; [exact B|]. split; [exact EQ|]. split; [reflexivity|]. split; discriminate.
        * intros q J. apply in_app_iff in J as [J|[X|[]]]; [specialize (LT _ _ J); lia|]. injection X as <-. reflexivity.
      + pose proof (LA _ _ _ _ _ _ _ E') as L. destruct (ia_task0 _ _ _ _ _ _ _ E'). constructor; auto.
        * destruct at_own0 as (n' & k' & b & B' & E1 & G & R). exists n', k', b. split; [exact B'|]. split; [exact E1|]. split; [|exact R]. rewrite nth_error_app1; assumption.
        * intros q J. apply in_app_iff in J as [J|[X|[]]]; [auto|]. injection X as _ X. lia.
    - intros t1 t2 c1 c2 a q1 q2 d1 d2 p1 p2 s1 s2 E1 E2. rewrite nth_upd in E1, E2.
      destruct (Nat.eqb_spec t t1) as [<-|]; destruct (Nat.eqb_spec t t2) as [<-|]; rewrite ?E in *; auto.
      + injection E1 as _ <- _ _ _ _. specialize (LA _ _ _ _ _ _ _ E2). lia.
      + injection E2 as _ <- _ _ _ _. specialize (LA _ _ _ _ _ _ _ E1). lia.
      + eauto.
  Qed.
End Steps.
