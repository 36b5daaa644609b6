(** A caller that is alone in waiting for a message id gets the first such message (C34, C36). *)
From Coq Require Import String ZArith List Bool Lia ZifyBool ZifyNat.
From Verif Require Import Py BitStream Schema Registry Codec SpecBits BitLemmas SpecWire SpecDecode HeaderProofs ReportProofs
  Waiter Conn SpecConn ConnLemmas ConnPacket ConnAck ConnInv ConnCases ConnProps ConnCalm ConnWait ConnReply.
Import ListNotations.
Open Scope list_scope.
Open Scope string_scope.
Open Scope list_scope.
Open Scope Z_scope.

(** ** traces *)
Lemma none_of_app h a b : none_of h a -> none_of h b -> none_of h (a ++ b).
Proof. intros A B n bs m J. apply in_app_iff in J as [J|J]; eauto. Qed.
Lemma none_of_quiet h n os : (forall bs, ~ In (ORecv bs) os) -> none_of h (stamp n os).
Proof. intros Q n' bs m J. apply in_map_iff in J as (o & E & J). injection E as _ ->. elim (Q _ J). Qed.
Lemma first_of_app h a b m : first_of h a m -> first_of h (a ++ b) m.
Proof. intros (x & n & bs & y & -> & N & B). exists x, n, bs, (y ++ b). rewrite <- app_assoc. auto. Qed.
Lemma none_before_of h n tr : none_of h tr -> none_before h n tr.
Proof. intros N n' bs m J B E. elim (N _ _ _ J B E). Qed.
Lemma none_before_app h n a os now : none_before h n a -> n <= now -> none_before h n (a ++ stamp now os).
Proof. intros N L n' bs m J B E. apply in_app_iff in J as [J|J]; [eauto|]. apply in_map_iff in J as (o & X & _). injection X as <- _. exact L. Qed.

(** ** what happens to one future and its session *)
Definition keeps (f : nat) (h : Z) (w w' : waiter) : Prop := nth_error (w_futs w') f = nth_error (w_futs w) f /\ (In (h, f) (w_sess w) -> In (h, f) (w_sess w')).
Lemma keeps_refl f h w : keeps f h w w. Proof. split; auto. Qed.
Lemma keeps_trans f h w w' w'' : keeps f h w w' -> keeps f h w' w'' -> keeps f h w w''.
Proof. intros [A B] [C D]. split; [congruence|auto]. Qed.
Lemma keeps_cancel f h g w : g <> f -> keeps f h w (cancel_fut g w).
Proof. intros N. unfold cancel_fut. destruct (nth_error (w_futs w) g) as [[]|]; try apply keeps_refl. split; cbn; [apply nth_upd_other; exact N|auto]. Qed.
Lemma keeps_set f h g x w : g <> f -> keeps f h w (set_fut g x w).
Proof. intros N. split; cbn; [apply nth_upd_other; exact N|auto]. Qed.
Lemma keeps_pop f h h' w : h' <> h -> keeps f h w (pop_sess h' w).
Proof. intros N. split; cbn; [reflexivity|]. intros J. apply in_ddel. split; [exact J|]. cbn. congruence. Qed.
Lemma keeps_add f h h' w g w' : (f < length (w_futs w))%nat -> add_session h' w = (g, w') -> keeps f h w w'.
Proof.
  intros L E. unfold add_session in E. destruct (dget Z.eqb h' (w_sess w)) eqn:D; injection E as _ <-; [apply keeps_refl|].
  split; cbn; [apply nth_error_app1; exact L|]. intros J. rewrite dset_fresh by exact D. apply in_or_app. left. exact J.
Qed.
Lemma keeps_start f h g tmo w ph w' : g <> f -> wait_start g tmo w = (ph, w') -> keeps f h w w'.
Proof.
  intros N E. unfold wait_start in E. destruct (0 <? tmo); [injection E as _ <-; apply keeps_refl|]. destruct (nth_error (w_futs w) g) as [[]|]; injection E as _ <-; try apply keeps_refl.
  apply keeps_cancel. exact N.
Qed.

(** ** the caller *)
Section Segment.
  Variables (t : nat) (h : Z) (c : call) (n0 : Z) (dup : Prop).  (* [dup]: the sequence number was taken *)
  Hypothesis W : wants c = Some h.
  Definition hope (w : waiter) (tr : trace) (f : nat) : Prop :=
    (nth_error (w_futs w) f = Some FPending /\ In (h, f) (w_sess w) /\ none_of h tr) \/ exists m, nth_error (w_futs w) f = Some (FDone m) /\ first_of h tr m.
  Definition stage (w : waiter) (now : Z) (es : list event) (tr : trace) (p : pc) : Prop :=
    match p with
    | PAck _ _ _ _ (Some f) => hope w tr f
    | PAck _ _ _ _ None => False
    | PWait h' f dl PhExpiring => h' = h /\ none_before h (n0 + reply_timeout c) tr /\ n0 + reply_timeout c <= now
    | PWait h' f dl PhExpired => h' = h /\ n0 + reply_timeout c <= now /\ hope w tr f
    | PWait h' f dl PhWaiting => h' = h /\ n0 + reply_timeout c <= dl /\ hope w tr f
    | PCancel h' _ => h' = h /\ In (EvCancel t) es
    | PDone (RMsg m) => first_of h tr m
    | PDone (RExc ETimeout) => none_before h (n0 + reply_timeout c) tr /\ n0 + reply_timeout c <= now
    | PDone (RExc ECancelled) => In (EvCancel t) es
    | PDone (RExc e) => sending c = true /\ (e = EKey \/ e = EDuplicateAck /\ dup)
    | PDone (RBool _) => False
    end.
  Definition lonely (tasks : list task) : Prop := forall t' c' p, t' <> t -> nth_error tasks t' = Some (mkT c' p) -> wants c' = Some h -> exists r, p = PDone r.
  Record seg (s : conn) (es : list event) (tr : trace) : Prop := {
    sg_task : exists p, nth_error (c_tasks s) t = Some (mkT c p) /\ stage (c_w s) (c_now s) es tr p;
    sg_alone : lonely (c_tasks s);
    sg_now : n0 <= c_now s }.

  Lemma lonely_upd tasks t0 c0 p p' : lonely tasks -> nth_error tasks t0 = Some (mkT c0 p) -> (forall r, p <> PDone r) -> lonely (upd t0 (mkT c0 p') tasks).
  Proof.
    intros L E N t' c' q NE E' Wc. rewrite nth_upd in E'. destruct (Nat.eqb_spec t0 t') as [<-|]; [|eauto]. rewrite E in E'. injection E' as <- <-.
    destruct (L _ _ _ NE E Wc) as (r & ->). elim (N r). reflexivity.
  Qed.
  Lemma lonely_new tasks c0 p : lonely tasks -> wants c0 <> Some h -> lonely (tasks ++ [mkT c0 p]).
  Proof. intros L N t' c' q NE E Wc. rewrite nth_snoc in E. destruct (Nat.eqb t' _); [injection E as <- <-; contradiction|eauto]. Qed.

  Lemma hope_keep w w' tr n os f : keeps f h w w' -> (forall bs, ~ In (ORecv bs) os) -> hope w tr f -> hope w' (tr ++ stamp n os) f.
  Proof.
    intros [A B] Q [(P & J & N)|(m & D & F)]; [left|right].
    - split; [congruence|]. split; [auto|]. apply none_of_app; [exact N|apply none_of_quiet; exact Q].
    - exists m. split; [congruence|]. apply first_of_app. exact F.
  Qed.
  Lemma stage_keep w w' now now' es e tr os p : (forall f, slot (mkT c p) = Some (h, f) -> keeps f h w w') -> (forall bs, ~ In (ORecv bs) os) -> now <= now' ->
    stage w now es tr p -> stage w' now' (es ++ [e]) (tr ++ stamp now os) p.
  Proof.
    intros K Q L S. assert (NB : forall n, none_before h n tr -> none_before h n (tr ++ stamp now os)).
    { intros n N n' bs m J. apply in_app_iff in J as [J|J]; [eauto|]. apply in_map_iff in J as (o & E & J). injection E as _ ->. elim (Q _ J). }
    destruct p as [aid sq dl ph [f|]|h' f dl ph|h' f|[b|m|ex]]; cbn in *.
    - apply (hope_keep w w'); auto. apply K. unfold slot. cbn. rewrite W. reflexivity.
    - exact S.
    - destruct ph; destruct S as (-> & S1 & S2); (split; [reflexivity|]; split; [lia || auto|]); try lia; apply (hope_keep w w'); auto.
    - destruct S as [-> S]. split; [reflexivity|]. apply in_or_app. left. exact S.
    - exact S.
    - apply first_of_app. exact S.
    - destruct ex; try exact S; [split; [apply NB; apply S|lia]|apply in_or_app; left; exact S].
  Qed.
  (** steps of others *)
  Lemma seg_other s es tr e s' os : seg s es tr -> nth_error (c_tasks s') t = nth_error (c_tasks s) t -> lonely (c_tasks s') -> c_now s <= c_now s' ->
    (forall x f, nth_error (c_tasks s) t = Some x -> slot x = Some (h, f) -> keeps f h (c_w s) (c_w s')) -> (forall bs, ~ In (ORecv bs) os) -> seg s' (es ++ [e]) (tr ++ stamp (c_now s) os).
  Proof.
    intros [(p & E & S) L N] E' L' N' K Q. constructor; [|exact L'|lia]. exists p. split; [congruence|]. apply (stage_keep (c_w s) (c_w s') (c_now s)); auto.
    intros f SL. exact (K _ _ E SL).
  Qed.
  (** a step of the caller *)
  Lemma seg_own s es tr e p p' s' os : seg s es tr -> nth_error (c_tasks s) t = Some (mkT c p) -> (forall r, p <> PDone r) -> c_tasks s' = upd t (mkT c p') (c_tasks s) -> c_now s' = c_now s ->
    (stage (c_w s) (c_now s) es tr p -> stage (c_w s') (c_now s) (es ++ [e]) (tr ++ stamp (c_now s) os) p') -> seg s' (es ++ [e]) (tr ++ stamp (c_now s) os).
  Proof.
    intros [(q & E & S) L N] E1 ND T NW K. rewrite E in E1. injection E1 as ->. constructor; rewrite ?T, ?NW; [|eapply lonely_upd; eassumption|exact N].
    exists p'. split; [rewrite nth_upd, Nat.eqb_refl, E; reflexivity|]. auto.
  Qed.

  Lemma packet_seg s tr0 bs s' os es tr : good s tr0 -> winv (c_w s) (c_tasks s) tr0 -> bytes_ok bs -> on_packet bs s = (s', os) -> seg s es tr ->
    seg s' (es ++ [EvPacket bs]) (tr ++ stamp (c_now s) (ORecv bs :: os)).
  Proof.
    intros G I B E S. destruct (packet_frame_of _ _ _ _ _ G B E) as (_ & PF & _).
    assert (NR : forall bs', ~ In (ORecv bs') os).
    { intros bs' J. destruct (on_packet_wait _ _ _ _ B E) as [(m & v & w & r & _ & _ & _ & _ & ->)|(_ & _ & o & -> & SI)].
      - destruct r as [[]|]; cbn in J; intuition discriminate.
      - destruct J as [->|[]]. exact SI. }
    destruct PF as [P1 P2 P3 P4 P5]. destruct S as [(p & T & S) L N]. constructor; [|rewrite P5; exact L|rewrite P1; exact N].
    exists p. split; [rewrite P5; exact T|]. rewrite P1.
    assert (TR : tr ++ stamp (c_now s) (ORecv bs :: os) = (tr ++ [(c_now s, ORecv bs)]) ++ stamp (c_now s) os) by (rewrite <- app_assoc; reflexivity).
    assert (HOPE : forall f, slot (mkT c p) = Some (h, f) -> hope (c_w s) tr f -> hope (c_w s') (tr ++ stamp (c_now s) (ORecv bs :: os)) f).
    { intros f SL H. destruct (wi_hf _ _ _ I) as (hf & HL & A & A2 & A3). pose proof (A2 _ _ _ _ T SL) as HF.
      destruct (on_packet_wait _ _ _ _ B E) as [(m & v & w & r & BR & _ & MR & -> & _)|(W' & NB & _)].
      - cbn [c_w set_w]. destruct (Z.eq_dec (hid m) h) as [HM|HM].
        + destruct H as [(P & J & NO)|(m' & D & F)].
          * right. exists m. unfold message_received in MR. destruct m; try (destruct BR as [(? & ? & ? & _ & X & _)|(? & X & _)]; discriminate X).
            rewrite HM in MR. rewrite (in_dget _ _ _ (wi_keys _ _ _ I) J), P in MR. injection MR as <- _. split; [cbn; rewrite nth_upd, Nat.eqb_refl, P; reflexivity|].
            exists tr, (c_now s), bs, (stamp (c_now s) os). auto.
          * right. exists m'. split; [|apply first_of_app; exact F]. unfold message_received in MR. destruct m; try (injection MR as <- _; exact D).
            destruct (dget Z.eqb _ (w_sess (c_w s))) as [g|] eqn:DG; [|injection MR as <- _; exact D]. destruct (nth_error (w_futs (c_w s)) g) as [[]|] eqn:NG; injection MR as <- _; try exact D.
            cbn. rewrite nth_upd_other; [exact D|]. intros ->. congruence.
        + assert (K : keeps f h (c_w s) w).
          { unfold message_received in MR. destruct m; try (injection MR as <- _; apply keeps_refl). destruct (dget Z.eqb _ (w_sess (c_w s))) as [g|] eqn:DG; [|injection MR as <- _; apply keeps_refl].
            assert (g <> f) by (intros ->; apply dget_in in DG; pose proof (A _ _ DG) as X; rewrite HF in X; injection X as X; auto).
            destruct (nth_error (w_futs (c_w s)) g) as [[]|]; injection MR as <- _; try (apply keeps_pop; exact HM). eapply keeps_trans; [apply keeps_pop; exact HM|apply keeps_set; assumption]. }
          rewrite TR. apply (hope_keep w w); [apply keeps_refl|exact NR|]. destruct K as [K1 K2]. destruct H as [(P & J & NO)|(m' & D & F)]; [left|right].
          * split; [congruence|]. split; [auto|]. apply none_of_app; [exact NO|]. intros n' bs' m' [X|[]] BR'. injection X as <- <-. rewrite (brings_fun _ _ _ BR' BR). exact HM.
          * exists m'. split; [congruence|apply first_of_app; exact F].
      - rewrite W', TR. apply (hope_keep (c_w s) (c_w s)); [apply keeps_refl|exact NR|]. destruct H as [(P & J & NO)|(m' & D & F)]; [left|right].
        + split; [exact P|]. split; [exact J|]. apply none_of_app; [exact NO|]. intros n' bs' m' [X|[]] BR'. injection X as <- <-. elim (NB _ BR').
        + exists m'. split; [exact D|apply first_of_app; exact F]. }
    destruct p as [aid sq dl ph [f|]|h' f dl ph|h' f|[b|m|ex]]; cbn [stage] in *.
    - apply HOPE; [unfold slot; cbn; rewrite W; reflexivity|exact S].
    - exact S.
    - destruct ph; destruct S as (-> & S1 & S2); (split; [reflexivity|]); split; auto; apply none_before_app; assumption.
    - destruct S as [-> S]. split; [reflexivity|]. apply in_or_app. left. exact S.
    - exact S.
    - apply first_of_app. exact S.
    - destruct ex; try exact S; [split; [apply none_before_app|]; apply S|apply in_or_app; left; exact S].
  Qed.

  Lemma start_stage w now es e tr os f tmo ph w' dl : wait_start f tmo w = (ph, w') -> hope w tr f -> (forall bs, ~ In (ORecv bs) os) -> tmo = reply_timeout c -> n0 <= now -> dl = now + tmo ->
    stage w' now (es ++ [e]) (tr ++ stamp now os) (PWait h f dl ph).
  Proof.
    intros E H Q -> N ->. unfold wait_start in E. destruct (0 <? reply_timeout c) eqn:P.
    - injection E as <- <-. cbn. split; [reflexivity|]. split; [lia|]. apply (hope_keep w w); auto using keeps_refl.
    - destruct H as [(FP & J & NO)|(m & D & F)].
      + rewrite FP in E. injection E as <- <-. cbn. split; [reflexivity|]. split; [|lia]. apply none_before_of. apply none_of_app; [exact NO|apply none_of_quiet; exact Q].
      + rewrite D in E. injection E as <- <-. cbn. split; [reflexivity|]. split; [lia|]. apply (hope_keep w w); auto using keeps_refl. right. eauto.
  Qed.

  Lemma step_seg s tr0 e s' os es tr : good s tr0 -> kinds s -> winv (c_w s) (c_tasks s) tr0 -> step s e = Some (s', os) -> (forall c', e = EvCall c' -> wants c' <> Some h) ->
    seg s es tr -> seg s' (es ++ [e]) (tr ++ stamp (c_now s) os).
  Proof.
    intros G K I ST NC S. pose proof S as [(p & T & SG) L N]. destruct (wi_hf _ _ _ I) as (hf & HL & A & A2 & A3).
    assert (LT : (t < length (c_tasks s))%nat) by exact (nth_lt _ _ _ T).
    assert (BD : forall x f, nth_error (c_tasks s) t = Some x -> slot x = Some (h, f) -> (f < length (w_futs (c_w s)))%nat) by (intros x f E SL; rewrite <- HL; exact (nth_lt _ _ _ (A2 _ _ _ _ E SL))).
    (* the futures and sessions of others are different *)
    assert (DIFF : forall x f t' c' p' h' g, nth_error (c_tasks s) t = Some x -> slot x = Some (h, f) -> t' <> t -> nth_error (c_tasks s) t' = Some (mkT c' p') -> (forall r, p' <> PDone r) ->
       slot (mkT c' p') = Some (h', g) -> wants c' = Some h' -> g <> f /\ h' <> h).
    { intros x f t' c' p' h' g E SL NE E' ND SL' Wc. assert (h' <> h) by (intros ->; destruct (L _ _ _ NE E' Wc) as (r & ->); elim (ND r); reflexivity).
      split; [|assumption]. intros ->. pose proof (A2 _ _ _ _ E SL). pose proof (A2 _ _ _ _ E' SL'). congruence. }
    assert (OTHER : forall t' c' p' p2 w', t' <> t -> nth_error (c_tasks s) t' = Some (mkT c' p') -> (forall r, p' <> PDone r) ->
       c_tasks s' = upd t' (mkT c' p2) (c_tasks s) -> c_now s' = c_now s -> c_w s' = w' -> (forall x f, nth_error (c_tasks s) t = Some x -> slot x = Some (h, f) -> keeps f h (c_w s) w') ->
       (forall bs, ~ In (ORecv bs) os) -> seg s' (es ++ [e]) (tr ++ stamp (c_now s) os)).
    { intros t' c' p' p2 w' NE E' ND T' N' <- KP Q. apply seg_other; auto; [rewrite T'; apply nth_upd_other; exact NE|rewrite T'; eapply lonely_upd; eassumption|rewrite N'; lia]. }
    assert (WK : forall t c p h f, nth_error (c_tasks s) t = Some (mkT c p) -> (exists dl ph, p = PWait h f dl ph) \/ p = PCancel h f -> wants c = Some h).
    { intros t1 c1 p1 h1 f1 E [(dl & ph & ->)| ->]; pose proof (K _ _ _ E) as KK; cbn in KK; destruct c1; cbn; congruence || contradiction. }
    assert (MINE : forall q, nth_error (c_tasks s) t = Some q -> q = mkT c p) by (intros q E; congruence).
    destruct (good_case _ _ _ _ _ G ST).
    - apply seg_other; auto; [cbn; lia|intros; apply keeps_refl].
    - apply seg_other; auto; [cbn; lia|intros; apply keeps_refl].
    - assert (KP : forall x f, nth_error (c_tasks s) t = Some x -> slot x = Some (h, f) -> keeps f h (c_w s) w).
      { intros x f E SL. destruct c0; cbn in H0; [injection H0 as _ <-; apply keeps_refl|..]; destruct (add_session h0 (c_w s)) eqn:AS; injection H0 as _ <-; exact (keeps_add _ _ _ _ _ _ (BD _ _ E SL) AS). }
      apply seg_other; auto; cbn [c_tasks c_w c_now set_task s_num set_w set_seq s_new]; [rewrite upd_last; apply nth_error_app1; exact LT|rewrite upd_last; apply lonely_new; auto|lia|intros bs J; cbn in J; intuition discriminate].
    - assert (KP : forall x f, nth_error (c_tasks s) t = Some x -> slot x = Some (h, f) -> keeps f h (c_w s) w).
      { intros x f E SL. destruct c0; cbn in H0; [injection H0 as _ <-; apply keeps_refl|..]; destruct (add_session h0 (c_w s)) eqn:AS; injection H0 as _ <-; exact (keeps_add _ _ _ _ _ _ (BD _ _ E SL) AS). }
      apply seg_other; auto; cbn [c_tasks c_w c_now set_task s_num set_w set_seq s_new reset_ka]; [rewrite upd_last; apply nth_error_app1; exact LT|rewrite upd_last; apply lonely_new; auto|lia|].
      unfold conn_send. destruct (c_up s); intros bs' J; cbn in J; intuition discriminate.
    - assert (KP : forall x f, nth_error (c_tasks s) t = Some x -> slot x = Some (h, f) -> keeps f h (c_w s) w).
      { intros x f E SL. destruct c0; cbn in H0; [injection H0 as _ <-; apply keeps_refl|..]; destruct (add_session h0 (c_w s)) eqn:AS; injection H0 as _ <-; exact (keeps_add _ _ _ _ _ _ (BD _ _ E SL) AS). }
      apply seg_other; auto; cbn [c_tasks c_w c_now set_task s_num set_w set_seq s_new reset_ka add_ack]; [rewrite upd_last; apply nth_error_app1; exact LT|rewrite upd_last; apply lonely_new; auto|lia|].
      unfold conn_send. destruct (c_up s); intros bs' J; cbn in J; intuition discriminate.
    - assert (KP : forall x g, nth_error (c_tasks s) t = Some x -> slot x = Some (h, g) -> keeps g h (c_w s) w').
      { intros x g E SL. eapply keeps_trans; [exact (keeps_add _ _ _ _ _ _ (BD _ _ E SL) H)|]. eapply keeps_start; [|exact H0]. intros <-.
        pose proof (winv_open _ _ _ _ _ _ (mkT (CWait h0 tmo) (PWait h0 f 0 PhWaiting)) I H (or_intror eq_refl) (conj eq_refl Logic.I)) as I2.
        destruct (wi_hf _ _ _ I2) as (hf2 & _ & _ & B2 & _). pose proof (B2 t x h f) as X1. rewrite nth_error_app1 in X1 by exact LT. pose proof (X1 E SL) as X2.
        pose proof (B2 (length (c_tasks s)) (mkT (CWait h0 tmo) (PWait h0 f 0 PhWaiting)) h0 f) as X3. rewrite nth_snoc, Nat.eqb_refl in X3. specialize (X3 eq_refl eq_refl).
        elim (NC _ eq_refl). cbn. congruence. }
      apply seg_other; auto; cbn [c_tasks c_w c_now set_task set_w s_new]; [rewrite upd_last; apply nth_error_app1; exact LT|rewrite upd_last; apply lonely_new; auto|lia|intros bs J; cbn in J; intuition discriminate].
    - eapply packet_seg; eassumption.
    - destruct (Nat.eq_dec t0 t) as [->|NE]; [|eapply OTHER; [exact NE|exact H|discriminate|reflexivity|reflexivity|reflexivity|intros; apply keeps_refl|intros ? []]].
      pose proof (MINE _ H) as X. injection X as -> <-. eapply seg_own; [exact S|exact H|discriminate|reflexivity|reflexivity|]. cbn [stage]. destruct ses; [|auto]. apply hope_keep; [apply keeps_refl|intros ? []].
    - destruct (Nat.eq_dec t0 t) as [->|NE]; [|eapply OTHER; [exact NE|exact H|discriminate|reflexivity|reflexivity|reflexivity|intros; apply keeps_refl|intros ? []]].
      pose proof (MINE _ H) as X. injection X as -> <-. eapply seg_own; [exact S|exact H|discriminate|reflexivity|reflexivity|]. cbn [stage]. intros (-> & S1 & S2). split; [reflexivity|]. split; [lia|]. eapply hope_keep; [apply keeps_refl|intros ? []|exact S2].
    - destruct (Nat.eq_dec t0 t) as [->|NE]; [|eapply OTHER; [exact NE|exact H|discriminate|reflexivity|reflexivity|reflexivity|intros; apply keeps_refl|intros bs J; cbn in J; intuition discriminate]].
      pose proof (MINE _ H) as X. injection X as -> <-. eapply seg_own; [exact S|exact H|discriminate|reflexivity|reflexivity|]. cbn [stage]. destruct ses; [|auto]. apply hope_keep; [apply keeps_refl|intros bs J; cbn in J; intuition discriminate].
    - subst. destruct (Nat.eq_dec t0 t) as [->|NE]; [|eapply OTHER; [exact NE|exact H|discriminate|reflexivity|reflexivity|reflexivity|intros; apply keeps_refl|intros bs J; cbn in J; intuition discriminate]].
      pose proof (MINE _ H) as X. injection X as -> <-. cbn in SG. contradiction.
    - destruct (Nat.eq_dec t0 t) as [->|NE].
      + pose proof (MINE _ H) as X. injection X as EC <-. assert (h0 = h) by (rewrite <- EC in W; cbn in W; congruence). subst h0. eapply seg_own; [exact S|rewrite <- EC; exact H|discriminate|cbn; rewrite <- EC; reflexivity|reflexivity|].
        intros HO. cbn [stage] in HO. cbn [c_w set_task set_w]. eapply start_stage; [exact H2|exact HO|intros ? []|rewrite <- EC; reflexivity|exact N|reflexivity].
      + eapply OTHER; [exact NE|exact H|discriminate|reflexivity|reflexivity|reflexivity| |intros ? []]. intros x g E SL. eapply keeps_start; [|exact H2].
        eapply DIFF; [exact E|exact SL|exact NE|exact H|discriminate|reflexivity|reflexivity].
    - destruct (Nat.eq_dec t0 t) as [->|NE]; [|eapply OTHER; [exact NE|exact H|discriminate|reflexivity|reflexivity|reflexivity|intros; apply keeps_refl|intros ? []]].
      pose proof (MINE _ H) as X. injection X as -> <-. eapply seg_own; [exact S|exact H|discriminate|reflexivity|reflexivity|]. cbn [stage]. destruct ses; [|auto]. apply hope_keep; [apply keeps_refl|intros ? []].
    - destruct (Nat.eq_dec t0 t) as [->|NE]; [|eapply OTHER; [exact NE|exact H|discriminate|reflexivity|reflexivity|reflexivity|intros; apply keeps_refl|intros bs J; cbn in J; intuition discriminate]].
      pose proof (MINE _ H) as X. injection X as -> <-. cbn in SG. contradiction.
    - destruct (Nat.eq_dec t0 t) as [->|NE].
      + pose proof (MINE _ H) as X. injection X as EC <-. assert (h0 = h) by (rewrite <- EC in W; cbn in W; congruence). subst h0. eapply seg_own; [exact S|rewrite <- EC; exact H|discriminate|cbn; rewrite <- EC; reflexivity|reflexivity|].
        intros HO. cbn [stage] in HO. cbn [c_w set_task set_w]. eapply start_stage; [exact H1|exact HO|intros ? []|rewrite <- EC; reflexivity|exact N|reflexivity].
      + eapply OTHER; [exact NE|exact H|discriminate|reflexivity|reflexivity|reflexivity| |intros ? []]. intros x g E SL. eapply keeps_start; [|exact H1].
        eapply DIFF; [exact E|exact SL|exact NE|exact H|discriminate|reflexivity|reflexivity].
    - destruct (Nat.eq_dec t0 t) as [->|NE]; [|eapply OTHER; [exact NE|exact H|discriminate|reflexivity|reflexivity|reflexivity|intros; apply keeps_refl|intros bs J; cbn in J; intuition discriminate]].
      pose proof (MINE _ H) as X. injection X as -> <-. eapply seg_own; [exact S|exact H|discriminate|reflexivity|reflexivity|]. intros _. cbn [stage]. split; [|auto]. pose proof (good_sess _ _ G _ _ _ _ _ _ _ H). destruct c; cbn; auto; contradiction.
    - destruct (Nat.eq_dec t0 t) as [->|NE].
      + pose proof (MINE _ H) as X. injection X as -> <-. eapply seg_own; [exact S|exact H|discriminate|reflexivity|reflexivity|]. intros HO. cbn [stage] in *. apply first_of_app.
        destruct ph; try (elim H0; reflexivity); destruct HO as (_ & _ & [(P & _)|(m' & D & F)]); congruence.
      + pose proof (WK _ _ _ _ _ H (or_introl (ex_intro _ dl (ex_intro _ ph eq_refl)))) as WC. eapply OTHER; [exact NE|exact H|discriminate|reflexivity|reflexivity|reflexivity| |intros bs J; cbn in J; intuition discriminate].
        intros x g E SL. apply keeps_pop. eapply DIFF; [exact E|exact SL|exact NE|exact H|discriminate|reflexivity|exact WC].
    - destruct (Nat.eq_dec t0 t) as [->|NE].
      + pose proof (MINE _ H) as X. injection X as -> <-. cbn in SG. exfalso. destruct ph; try (elim H0; reflexivity); destruct SG as (_ & _ & [(P & _)|(m' & D & F)]); congruence.
      + pose proof (WK _ _ _ _ _ H (or_introl (ex_intro _ dl (ex_intro _ ph eq_refl)))) as WC. eapply OTHER; [exact NE|exact H|discriminate|reflexivity|reflexivity|reflexivity| |intros bs J; cbn in J; intuition discriminate].
        intros x g E SL. apply keeps_pop. eapply DIFF; [exact E|exact SL|exact NE|exact H|discriminate|reflexivity|exact WC].
    - destruct (Nat.eq_dec t0 t) as [->|NE].
      + pose proof (MINE _ H) as X. injection X as -> <-. eapply seg_own; [exact S|exact H|discriminate|reflexivity|reflexivity|]. cbn [stage]. intros (-> & S1 & [(P & _ & NO)|(m' & D & F)]); [|congruence].
        split; [reflexivity|]. cbn [stamp map]. rewrite app_nil_r. split; [apply none_before_of; exact NO|exact S1].
      + pose proof (WK _ _ _ _ _ H (or_introl (ex_intro _ dl (ex_intro _ PhExpired eq_refl)))) as WC. eapply OTHER; [exact NE|exact H|discriminate|reflexivity|reflexivity|reflexivity| |intros ? []].
        intros x g E SL. apply keeps_set. eapply DIFF; [exact E|exact SL|exact NE|exact H|discriminate|reflexivity|exact WC].
    - destruct (Nat.eq_dec t0 t) as [->|NE].
      + pose proof (MINE _ H) as X. injection X as -> <-. eapply seg_own; [exact S|exact H|discriminate|reflexivity|reflexivity|]. cbn [stage]. intros (-> & S1 & S2). split; [apply none_before_app; assumption|exact S2].
      + pose proof (WK _ _ _ _ _ H (or_introl (ex_intro _ dl (ex_intro _ PhExpiring eq_refl)))) as WC. eapply OTHER; [exact NE|exact H|discriminate|reflexivity|reflexivity|reflexivity| |intros bs J; cbn in J; intuition discriminate].
        intros x g E SL. apply keeps_pop. eapply DIFF; [exact E|exact SL|exact NE|exact H|discriminate|reflexivity|exact WC].
    - destruct (Nat.eq_dec t0 t) as [->|NE].
      + pose proof (MINE _ H) as X. injection X as -> <-. eapply seg_own; [exact S|exact H|discriminate|reflexivity|reflexivity|]. cbn [stage]. intros (_ & S1). apply in_or_app. left. exact S1.
      + pose proof (WK _ _ _ _ _ H (or_intror eq_refl)) as WC. eapply OTHER; [exact NE|exact H|discriminate|reflexivity|reflexivity|reflexivity| |intros bs J; cbn in J; intuition discriminate].
        intros x g E SL. apply keeps_pop. eapply DIFF; [exact E|exact SL|exact NE|exact H|discriminate|reflexivity|exact WC].
    - destruct (Nat.eq_dec t0 t) as [->|NE]; [|eapply OTHER; [exact NE|exact H|discriminate|reflexivity|reflexivity|reflexivity|intros; apply keeps_refl|intros bs J; cbn in J; intuition discriminate]].
      pose proof (MINE _ H) as X. injection X as -> <-. eapply seg_own; [exact S|exact H|discriminate|reflexivity|reflexivity|]. intros _. cbn [stage]. apply in_or_app. right. left. reflexivity.
    - destruct (Nat.eq_dec t0 t) as [->|NE].
      + pose proof (MINE _ H) as X. injection X as -> <-. eapply seg_own; [exact S|exact H|discriminate|reflexivity|reflexivity|]. intros HO. cbn [stage] in *. split; [destruct ph; apply HO|]. apply in_or_app. right. left. reflexivity.
      + pose proof (WK _ _ _ _ _ H (or_introl (ex_intro _ dl (ex_intro _ ph eq_refl)))) as WC. eapply OTHER; [exact NE|exact H|discriminate|reflexivity|reflexivity|reflexivity| |intros ? []].
        intros x g E SL. apply keeps_cancel. eapply DIFF; [exact E|exact SL|exact NE|exact H|discriminate|reflexivity|exact WC].
    - apply seg_other; auto; [cbn; lia|intros; apply keeps_refl|]. unfold conn_send. destruct (c_up s); intros bs' J; cbn in J; intuition discriminate.
  Qed.
End Segment.

(** what a caller can send *)
Definition sane (c : call) : Prop := forall cmd sep dep, payload c = Some (cmd, sep, dep) -> 0 <= sep < 128 /\ 0 <= dep < 128 /\ exists b, encodes cmd b.
Lemma open_pending w tasks tr h f w' : winv w tasks tr -> (forall t x g, nth_error tasks t = Some x -> ~ quits x h g) -> add_session h w = (f, w') -> nth_error (w_futs w') f = Some FPending /\ In (h, f) (w_sess w').
Proof.
  intros I NQ E. destruct (add_session_spec _ _ _ _ (wi_keys _ _ _ I) (fun h f => winv_bound w tasks tr h f I) E) as [[-> D]|(D & -> & ->)].
  - pose proof (dget_in _ _ _ D) as J. split; [|exact J]. pose proof (winv_bound _ _ _ _ _ I J) as L. destruct (nth_error (w_futs w) f) as [[]|] eqn:N; [reflexivity| | |].
    + elim (wi_open _ _ _ I _ _ v J). exact N.
    + destruct (wi_quit _ _ _ I _ _ J N) as (t & x & E' & Q). elim (NQ _ _ _ E' Q).
    + apply nth_error_None in N. lia.
  - cbn. split; [rewrite nth_snoc, Nat.eqb_refl; reflexivity|apply in_or_app; right; left; reflexivity].
Qed.
Lemma call_seg es1 s1 tr1 c h s2 os : exec conn0 es1 s1 tr1 -> wants c = Some h -> (forall t, ~ waits_on s1 t h) -> sane c -> step s1 (EvCall c) = Some (s2, os) ->
  seg (length (c_tasks s1)) h c (c_now s1) (dget Z.eqb ((sends tr1 + 1) mod 256) (c_ackq s1) <> None) s2 [] (stamp (c_now s1) os).
Proof.
  intros X W NW SA ST. destruct (exec_good _ _ _ X) as [G _]. pose proof G as (IA & SQ & _). pose proof (exec_winv _ _ _ X) as I.
  pose proof (exec_kinds _ _ _ X) as K.
  assert (NQ : forall t x g, nth_error (c_tasks s1) t = Some x -> ~ quits x h g).
  { intros t [c' p] g E Q. apply (NW t). exists c', p. split; [exact E|]. pose proof (K _ _ _ E) as KK. unfold quits in Q. cbn in *. destruct p as [|h' f dl []|h' f|]; try contradiction; destruct Q as [-> ->].
    all: (split; [destruct c'; cbn; congruence || contradiction|discriminate]). }
  assert (AL : forall x, lonely (length (c_tasks s1)) h (c_tasks s1 ++ [x])).
  { intros x t' c' p NE E Wc. rewrite nth_snoc in E. destruct (Nat.eqb_spec t' (length (c_tasks s1))); [contradiction|]. destruct p; eauto; (elim (NW t'); exists c'; eexists; split; [exact E|]; split; [exact Wc|discriminate]). }
  assert (BY : forall cmd sep dep, payload c = Some (cmd, sep, dep) -> exists bs, send_bytes ((sends tr1 + 1) mod 256) sep dep cmd = Ok bs).
  { intros cmd sep dep P. destruct (SA _ _ _ P) as (H1 & H2 & b & EN). destruct (send_bytes_ok ((sends tr1 + 1) mod 256) sep dep cmd b) as (cbs & _ & _ & _ & C4); auto; [apply Z.mod_pos_bound; lia|eauto]. }
  assert (NR : forall bs, ~ In (ORecv bs) (OCall (length (c_tasks s1)) c :: conn_send (Some (length (c_tasks s1))) bs s1)).
  { intros bs [J|J]; [discriminate|]. unfold conn_send in J. destruct (c_up s1); cbn in J; intuition discriminate. }
  pose proof (good_case _ _ _ _ _ G ST) as KC. inversion KC; subst; rewrite ?SQ, ?land255 in *.
  - destruct (BY _ _ _ H0) as (bs & B). congruence.
  - constructor; cbn [c_tasks c_w c_now set_task s_num set_w set_seq s_new reset_ka]; rewrite ?upd_last; [|apply AL|lia].
    eexists. split; [rewrite nth_snoc, Nat.eqb_refl; reflexivity|]. cbn. split; [destruct c; try discriminate; reflexivity|]. right. split; [reflexivity|].
    unfold dmem in H3. destruct (dget Z.eqb _ (c_ackq s1)); discriminate.
  - constructor; cbn [c_tasks c_w c_now set_task s_num set_w set_seq s_new reset_ka add_ack]; rewrite ?upd_last; [|apply AL|lia].
    eexists. split; [rewrite nth_snoc, Nat.eqb_refl; reflexivity|]. cbn [stage]. destruct c; try discriminate. cbn in W. injection W as ->. cbn [opens] in H1.
    destruct (add_session h (c_w s1)) as [f w1] eqn:AS. injection H1 as <- <-. destruct (open_pending _ _ _ _ _ _ I NQ AS) as [P J]. left. split; [exact P|]. split; [exact J|].
    apply none_of_quiet. intros bs' [J'|J']; [discriminate|]. unfold conn_send in J'. destruct (c_up s1); cbn in J'; intuition discriminate.
  - cbn in W. injection W as ->. destruct (open_pending _ _ _ _ _ _ I NQ H0) as [P J].
    constructor; cbn [c_tasks c_w c_now set_task set_w s_new]; rewrite ?upd_last; [|apply AL|lia].
    eexists. split; [rewrite nth_snoc, Nat.eqb_refl; reflexivity|].
    assert (NO : none_of h (stamp (c_now s1) [OCall (length (c_tasks s1)) (CWait h tmo)])) by (apply none_of_quiet; intros bs [J'|[]]; discriminate).
    unfold wait_start in H1. destruct (0 <? tmo) eqn:PT.
    + injection H1 as <- <-. cbn. split; [reflexivity|]. split; [lia|]. left. auto.
    + rewrite P in H1. injection H1 as <- <-. cbn. split; [reflexivity|]. split; [apply none_before_of; exact NO|lia].
Qed.
Lemma exec_seg es1 s1 tr1 c h s2 os es2 s3 tr3 : exec conn0 es1 s1 tr1 -> wants c = Some h -> (forall t, ~ waits_on s1 t h) -> sane c -> step s1 (EvCall c) = Some (s2, os) ->
  exec s2 es2 s3 tr3 -> (forall c', In (EvCall c') es2 -> wants c' <> Some h) ->
  seg (length (c_tasks s1)) h c (c_now s1) (dget Z.eqb ((sends tr1 + 1) mod 256) (c_ackq s1) <> None) s3 es2 (stamp (c_now s1) os ++ tr3) /\ exec conn0 ((es1 ++ [EvCall c]) ++ es2) s3 ((tr1 ++ stamp (c_now s1) os) ++ tr3).
Proof.
  intros X W NW SA ST X2. pose proof (X_snoc _ _ _ _ _ _ _ X ST) as X1. induction X2 as [|es s tr e s' os' X2 IH ST']; intros NC.
  - split; [rewrite app_nil_r; eapply call_seg; eassumption|rewrite !app_nil_r; exact X1].
  - destruct IH as [IH XX]; [intros c' J; apply NC; apply in_or_app; left; exact J|]. split.
    + rewrite app_assoc. eapply step_seg; [exact W|exact (proj1 (exec_good _ _ _ XX))|exact (exec_kinds _ _ _ XX)|exact (exec_winv _ _ _ XX)|exact ST'| |exact IH].
      intros c' ->. apply NC. apply in_or_app. right. left. reflexivity.
    + rewrite !app_assoc. eapply X_snoc; [|exact ST']. rewrite <- !app_assoc in *. exact XX.
Qed.
(** ** C34, C36: outcome of a call that is alone in waiting for [h] *)
Definition alone_outcome (c : call) (h : Z) (t : nat) (n0 : Z) (dup : Prop) (es : list event) (tr : trace) (r : result) : Prop :=
  match r with
  | RMsg m => first_of h tr m
  | RExc ETimeout => none_before h (n0 + reply_timeout c) tr
  | RExc ECancelled => In (EvCancel t) es
  | RExc e => sending c = true /\ (e = EKey \/ e = EDuplicateAck /\ dup)
  | RBool _ => False
  end.
Lemma alone_reply es1 s1 tr1 c h s2 os es2 s3 tr3 n r : exec conn0 es1 s1 tr1 -> wants c = Some h -> (forall t, ~ waits_on s1 t h) -> sane c -> step s1 (EvCall c) = Some (s2, os) ->
  exec s2 es2 s3 tr3 -> (forall c', In (EvCall c') es2 -> wants c' <> Some h) -> In (n, ORet (length (c_tasks s1)) r) (stamp (c_now s1) os ++ tr3) ->
  alone_outcome c h (length (c_tasks s1)) (c_now s1) (dget Z.eqb ((sends tr1 + 1) mod 256) (c_ackq s1) <> None) es2 (stamp (c_now s1) os ++ tr3) r.
Proof.
  intros X W NW SA ST X2 NC J. destruct (exec_seg _ _ _ _ _ _ _ _ _ _ X W NW SA ST X2 NC) as [[(p & T & S) _ _] XX].
  destruct (proj2 (exec_owners _ _ _ XX) n (length (c_tasks s1)) r) as (c' & E); [rewrite <- app_assoc; apply in_or_app; right; exact J|].
  rewrite T in E. injection E as <- ->. cbn [stage] in S. unfold alone_outcome. destruct r as [|m|[]]; auto; tauto.
Qed.
(** a received reply can always be returned while the call waits *)
Lemma alone_ready es1 s1 tr1 c h s2 os es2 s3 tr3 m f dl ph : exec conn0 es1 s1 tr1 -> wants c = Some h -> (forall t, ~ waits_on s1 t h) -> sane c -> step s1 (EvCall c) = Some (s2, os) ->
  exec s2 es2 s3 tr3 -> (forall c', In (EvCall c') es2 -> wants c' <> Some h) -> nth_error (c_tasks s3) (length (c_tasks s1)) = Some (mkT c (PWait h f dl ph)) -> ph <> PhExpiring ->
  first_of h (stamp (c_now s1) os ++ tr3) m -> exists s4, step s3 (EvResume (length (c_tasks s1))) = Some (s4, [ORet (length (c_tasks s1)) (RMsg m)]).
Proof.
  intros X W NW SA ST X2 NC E NE F. destruct (exec_seg _ _ _ _ _ _ _ _ _ _ X W NW SA ST X2 NC) as [[(p & T & S) _ _] XX]. rewrite E in T. injection T as <-.
  assert (H : hope h (c_w s3) (stamp (c_now s1) os ++ tr3) f) by (destruct ph; try (elim NE; reflexivity); apply S).
  destruct H as [(_ & _ & NO)|(m' & D & F')].
  - exfalso. destruct F as (a & n & bs & b & E1 & _ & B & HM). apply (NO n bs m); [rewrite E1; apply in_or_app; right; left; reflexivity|exact B|exact HM].
  - assert (m' = m).
    { destruct F as (a & n & bs & b & E1 & N1 & B1 & HM1), F' as (a' & n' & bs' & b' & E1' & N1' & B1' & HM1'). rewrite E1 in E1'.
      clear - E1' N1 B1 HM1 N1' B1' HM1'. revert a' N1' E1'. induction a as [|x a IH]; intros [|y a'] N1' E.
      - injection E as <- <- <-. eapply brings_fun; eassumption.
      - injection E as <- _. elim (N1' n bs m (or_introl eq_refl) B1 HM1).
      - injection E as -> _. elim (N1 n' bs' m' (or_introl eq_refl) B1' HM1').
      - injection E as <- E. apply (IH) with (a' := a'); auto; intros n2 bs2 m2 J; [apply (N1 n2 bs2)|apply (N1' n2 bs2)]; right; exact J. }
    subst m'. cbn [step]. rewrite E. cbn [t_pc resume]. rewrite D. destruct ph; try (elim NE; reflexivity); eexists; reflexivity.
Qed.

(** ** calm runs: the key is never missing *)
Definition no_key (s : conn) : Prop := forall t c, nth_error (c_tasks s) t = Some (mkT c (PDone (RExc EKey))) ->
  exists cmd sep dep sq, payload c = Some (cmd, sep, dep) /\ 0 <= sq < 256 /\ send_bytes sq sep dep cmd = Err EKey.
Lemma calm_no_key es s tr : calm_exec conn0 es s tr -> no_key s.
Proof.
  induction 1 as [|es s tr e s' os X IH ST CA]; [intros [] c E; discriminate|]. pose proof (exec_good _ _ _ (calm_run _ _ _ _ X)) as [G _]. pose proof (calm_registered _ _ _ X) as R.
  pose proof (num_range _ _ G) as NR.
  assert (UP : forall t x, (forall c, x = mkT c (PDone (RExc EKey)) -> exists cmd sep dep sq, payload c = Some (cmd, sep, dep) /\ 0 <= sq < 256 /\ send_bytes sq sep dep cmd = Err EKey) ->
     forall t' c, nth_error (upd t x (c_tasks s)) t' = Some (mkT c (PDone (RExc EKey))) -> exists cmd sep dep sq, payload c = Some (cmd, sep, dep) /\ 0 <= sq < 256 /\ send_bytes sq sep dep cmd = Err EKey).
  { intros t x Q t' c E. rewrite nth_upd in E. destruct (Nat.eqb t t'); [destruct (nth_error (c_tasks s) t); [injection E as ->; eauto|discriminate]|eauto]. }
  assert (NEW : forall x, (forall c, x = mkT c (PDone (RExc EKey)) -> exists cmd sep dep sq, payload c = Some (cmd, sep, dep) /\ 0 <= sq < 256 /\ send_bytes sq sep dep cmd = Err EKey) ->
     forall t' c, nth_error (c_tasks s ++ [x]) t' = Some (mkT c (PDone (RExc EKey))) -> exists cmd sep dep sq, payload c = Some (cmd, sep, dep) /\ 0 <= sq < 256 /\ send_bytes sq sep dep cmd = Err EKey).
  { intros x Q t' c E. rewrite nth_snoc in E. destruct (Nat.eqb t' _); [injection E as ->; eauto|eauto]. }
  unfold no_key. destruct (good_case _ _ _ _ _ G ST); cbn [c_tasks set_task s_num set_w set_seq s_new reset_ka add_ack set_ack set_ackq]; rewrite ?upd_last; try exact IH; subst; cbn [c_tasks set_task]; try (apply UP; intros; discriminate); try (apply NEW; intros; discriminate).
  - apply NEW. intros c' [= <- ->]. eauto 8.
  - destruct (packet_frame_of _ _ _ _ _ G H0 H1) as (_ & [_ _ _ _ ->] & _). exact IH.
  - destruct (R _ _ _ _ _ _ _ H) as [J|(Y & _)]; [|discriminate]. unfold dmem in H0. pose proof G as (I & _). rewrite (in_dget _ _ _ (ia_keys _ _ _ _ _ I) J) in H0. discriminate.
Qed.
Lemma calm_app s0 es1 s1 tr1 es2 s2 tr2 : calm_exec s0 es1 s1 tr1 -> calm_exec s1 es2 s2 tr2 -> calm_exec s0 (es1 ++ es2) s2 (tr1 ++ tr2).
Proof.
  intros A B. induction B as [|es s tr e s' os B IH E Q]; [rewrite !app_nil_r; exact A|].
  rewrite !app_assoc. eapply Q_snoc; eassumption.
Qed.
Lemma calm_alone_reply es1 s1 tr1 c h s2 os es2 s3 tr3 n r : calm_exec conn0 es1 s1 tr1 -> wants c = Some h -> (forall t, ~ waits_on s1 t h) -> sane c -> dget Z.eqb ((sends tr1 + 1) mod 256) (c_ackq s1) = None ->
  step s1 (EvCall c) = Some (s2, os) -> calm_exec s2 es2 s3 tr3 -> (forall c', In (EvCall c') es2 -> wants c' <> Some h) -> In (n, ORet (length (c_tasks s1)) r) (stamp (c_now s1) os ++ tr3) ->
  (exists m, r = RMsg m /\ first_of h (stamp (c_now s1) os ++ tr3) m) \/ (r = RExc ETimeout /\ none_before h (c_now s1 + reply_timeout c) (stamp (c_now s1) os ++ tr3)) \/
  (r = RExc ECancelled /\ In (EvCancel (length (c_tasks s1))) es2).
Proof.
  intros X W NW SA FREE ST X2 NC J.
  assert (X1 : calm_exec conn0 (es1 ++ [EvCall c]) s2 (tr1 ++ stamp (c_now s1) os)) by (eapply Q_snoc; [exact X|exact ST|intros (bs & E); discriminate]).
  pose proof (calm_app _ _ _ _ _ _ _ X1 X2) as X3.
  pose proof (alone_reply _ _ _ _ _ _ _ _ _ _ _ _ (calm_run _ _ _ _ X) W NW SA ST (calm_run _ _ _ _ X2) NC J) as O.
  destruct (proj2 (exec_owners _ _ _ (calm_run _ _ _ _ X3)) n (length (c_tasks s1)) r) as (c' & E); [rewrite <- app_assoc; apply in_or_app; right; exact J|].
  destruct (exec_seg _ _ _ _ _ _ _ _ _ _ (calm_run _ _ _ _ X) W NW SA ST (calm_run _ _ _ _ X2) NC) as [[(p & T & S) _ _] _]. rewrite T in E. injection E as <- ->.
  assert (NK : r <> RExc EKey).
  { intros ->. destruct (calm_no_key _ _ _ X3 _ _ T) as (cmd & sep & dep & sq & P & SQ & B). destruct (SA _ _ _ P) as (H1 & H2 & b & EN).
    destruct (send_bytes_ok sq sep dep cmd b SQ H1 H2 EN) as (cbs & _ & _ & _ & C4). congruence. }
  unfold alone_outcome in O. destruct r as [b|m|e]; [contradiction|eauto|]. right. destruct e; auto; exfalso; destruct O as (_ & [O|[_ O]]); try discriminate; auto.
Qed.
(** [waitForMessage] alone *)
Lemma alone_wait es1 s1 tr1 h tmo s2 os es2 s3 tr3 n r : exec conn0 es1 s1 tr1 -> (forall t, ~ waits_on s1 t h) -> step s1 (EvCall (CWait h tmo)) = Some (s2, os) ->
  exec s2 es2 s3 tr3 -> (forall c', In (EvCall c') es2 -> wants c' <> Some h) -> In (n, ORet (length (c_tasks s1)) r) (stamp (c_now s1) os ++ tr3) ->
  match r with
  | RMsg m => first_of h (stamp (c_now s1) os ++ tr3) m
  | RExc ETimeout => none_before h (c_now s1 + tmo) (stamp (c_now s1) os ++ tr3)
  | RExc ECancelled => In (EvCancel (length (c_tasks s1))) es2
  | _ => False
  end.
Proof.
  intros X NW ST X2 NC J. assert (SA : sane (CWait h tmo)) by (intros ? ? ? E; discriminate).
  pose proof (alone_reply _ _ _ (CWait h tmo) h _ _ _ _ _ _ _ X eq_refl NW SA ST X2 NC J) as O. unfold alone_outcome in O. destruct r as [|m|[]]; try exact O; destruct O as [O _]; discriminate.
Qed.
