(** What a node's request returns was received after its command was acknowledged, whoever else waits at the same time. *)
From Coq Require Import ZArith List Bool Lia.
From Verif Require Import Py Schema Codec Waiter Conn ConnLemmas NodeProofs NodeReq SpecNodeReq NodeReqProofs.
Import ListNotations.
Open Scope list_scope.
Open Scope Z_scope.

Definition came (u : nat) (h : Z) (m : val) (tr : ntrace) : Prop := hid m = h /\ exists n, In (n, NRecv m (Ok true)) (since_sent u tr).
Record fresh (s : nstate) (tr : ntrace) : Prop := mkFresh {
  f_sess : forall h f m, dget Z.eqb h (w_sess (n_w s)) = Some f -> nth_error (w_futs (n_w s)) f <> Some (FDone m);
  f_task : forall u h tmo p, nth_error (n_tasks s) u = Some (mkNT (NReq h tmo) p) ->
    match p with
    | NSending => True
    | NWaiting h' f _ _ | NCancel h' f => h' = h /\ sent_ok u tr = true /\ forall m, nth_error (w_futs (n_w s)) f = Some (FDone m) -> came u h m tr
    | NDone (RMsg m) => sent_ok u tr = true /\ came u h m tr
    | NDone _ => True
    end }.

Lemma came_more u h m tr x : sent_ok u tr = true -> came u h m tr -> came u h m (tr ++ x).
Proof. intros S [A [n B]]. split; [exact A|]. exists n. rewrite since_sent_app, S. apply in_or_app. auto. Qed.
Lemma sent_more u tr x : sent_ok u tr = true -> sent_ok u (tr ++ x) = true.
Proof. intros S. rewrite sent_app, S. reflexivity. Qed.

(** the futures after a step, as far as they are done *)
Definition same_done (w w' : waiter) : Prop := forall f m, nth_error (w_futs w') f = Some (FDone m) -> nth_error (w_futs w) f = Some (FDone m).
Lemma done_refl w : same_done w w. Proof. intros f m H. exact H. Qed.
Lemma done_cancel f w : same_done w (cancel_fut f w).
Proof.
  intros g m. unfold cancel_fut. destruct (nth_error (w_futs w) f) as [[|v|]|] eqn:E; auto. unfold set_fut. cbn. rewrite nth_upd, E.
  destruct (Nat.eqb f g); [discriminate|auto].
Qed.
Lemma done_add h w f w' : add_session h w = (f, w') -> same_done w w'.
Proof.
  intros E. apply add_cases in E as [[_ ->]|(_ & _ & _ & B)]; [apply done_refl|]. intros g m. rewrite B, nth_snoc. destruct (Nat.eqb g _); [discriminate|auto].
Qed.
Lemma done_pop h w : same_done w (pop_sess h w). Proof. intros f m H. exact H. Qed.
Lemma done_trans a b c : same_done a b -> same_done b c -> same_done a c.
Proof. intros X Y f m H. auto. Qed.

(** sessions never hold a future that is done *)
Definition undone (w : waiter) : Prop := forall h f m, dget Z.eqb h (w_sess w) = Some f -> nth_error (w_futs w) f <> Some (FDone m).
Lemma undone_sub w w' : undone w -> same_done w w' -> (forall h f, dget Z.eqb h (w_sess w') = Some f -> dget Z.eqb h (w_sess w) = Some f) -> undone w'.
Proof. intros U D S h f m G E. exact (U h f m (S h f G) (D f m E)). Qed.
Lemma undone_pop h w : undone w -> undone (pop_sess h w).
Proof. intros U. eapply undone_sub; [exact U|apply done_pop|]. intros h' f. apply ddel_sub. Qed.
Lemma undone_cancel f w : undone w -> undone (cancel_fut f w).
Proof. intros U. eapply undone_sub; [exact U|apply done_cancel|rewrite sess_cancel; auto]. Qed.
Lemma undone_add h w f w' : undone w -> add_session h w = (f, w') -> undone w' /\ (forall m, nth_error (w_futs w') f <> Some (FDone m)).
Proof.
  intros U E. pose proof E as E0. apply add_cases in E as [[E ->]|(E & -> & A & B)]; [split; [exact U|intros m; exact (U h f m E)]|].
  split.
  - intros h' g m G. rewrite A, dget_dset in G. destruct (Z.eqb_spec h' h) as [->|]; [injection G as <-; rewrite B, nth_snoc, Nat.eqb_refl; discriminate|].
    intros Q. apply (done_add h w _ w' E0) in Q. exact (U _ _ _ G Q).
  - intros m. rewrite B, nth_snoc, Nat.eqb_refl. discriminate.
Qed.

Lemma wait_fresh t h tmo s x : undone (n_w s) -> nth_error (n_tasks s) t = Some x ->
  exists f w dl ph, n_wait t h tmo s = n_setpc t (NWaiting h f dl ph) (n_setw w s) /\ undone w /\ same_done (n_w s) w /\ forall m, nth_error (w_futs w) f <> Some (FDone m).
Proof.
  intros U E. unfold n_wait. destruct (add_session h (n_w s)) as [f w] eqn:A. destruct (undone_add h _ f w U A) as [U' N]. pose proof (done_add h _ f w A) as D.
  destruct (0 <? tmo); [exists f, w; do 2 eexists; split; [reflexivity|auto]|].
  destruct (nth_error (w_futs w) f) as [[|v|]|] eqn:F.
  - exists f, (cancel_fut f w). do 2 eexists. split; [reflexivity|]. pose proof (done_cancel f w) as C. split; [|split].
    + eapply undone_sub; [exact U'|exact C|]. rewrite sess_cancel. auto.
    + eapply done_trans; eassumption.
    + intros m Q. apply C in Q. congruence.
  - destruct (N v). reflexivity.
  - exists f, w; do 2 eexists; split; [reflexivity|]. rewrite F. auto.
  - exists f, w; do 2 eexists; split; [reflexivity|]. rewrite F. auto.
Qed.

Lemma fresh_frame s tr s' x w : fresh s tr -> n_w s' = w -> undone w -> same_done (n_w s) w ->
  (forall u h tmo p, nth_error (n_tasks s') u = Some (mkNT (NReq h tmo) p) -> nth_error (n_tasks s) u = Some (mkNT (NReq h tmo) p) \/
     match p with
     | NSending => True
     | NWaiting h' f _ _ | NCancel h' f => h' = h /\ sent_ok u (tr ++ x) = true /\ forall m, nth_error (w_futs w) f = Some (FDone m) -> came u h m (tr ++ x)
     | NDone (RMsg m) => sent_ok u (tr ++ x) = true /\ came u h m (tr ++ x)
     | NDone _ => True
     end) -> fresh s' (tr ++ x).
Proof.
  intros [FS FT] W U D H. constructor; [rewrite W; exact U|]. intros u h tmo p E. rewrite W. destruct (H u h tmo p E) as [O|O]; [|exact O].
  specialize (FT u h tmo p O). destruct p as [|h' f dl ph|h' f|r]; auto.
  - destruct FT as (A & B & C). split; [exact A|]. split; [apply sent_more, B|]. intros m Q. apply came_more; auto.
  - destruct FT as (A & B & C). split; [exact A|]. split; [apply sent_more, B|]. intros m Q. apply came_more; auto.
  - destruct r; auto. destruct FT as [A B]. split; [apply sent_more, A|apply came_more; auto].
Qed.
Lemma setpc_at t p s x u y : nth_error (n_tasks s) t = Some x -> nth_error (n_tasks (n_setpc t p s)) u = Some y ->
  (u = t /\ y = mkNT (n_call x) p) \/ (u <> t /\ nth_error (n_tasks s) u = Some y).
Proof.
  intros E G. destruct (Nat.eq_dec u t) as [->|N]; [rewrite (setpc_same t p s x E) in G; injection G as <-; auto|]. rewrite setpc_other in G by exact N. auto.
Qed.

Lemma fresh_step own s e s' os tr : wok own s -> fresh s tr -> nstep s e = Some (s', os) -> fresh s' (tr ++ nstamp (n_now s) os).
Proof.
  intros W F H. pose proof (f_sess _ _ F) as U. pose proof (f_task _ _ F) as T. change (undone (n_w s)) in U.
  destruct e as [dt|c|t r|m|t|t|t]; cbn [nstep] in H.
  - destruct (0 <=? dt); [|discriminate]. injection H as <- <-. eapply fresh_frame; [exact F|reflexivity|exact U|apply done_refl|]. cbn. auto.
  - destruct c as [h tmo|h tmo].
    + destruct (add_session h (n_w s)) as [f w] eqn:A. injection H as <- <-. destruct (undone_add _ _ _ _ U A) as [U' _].
      eapply fresh_frame; [exact F|reflexivity|exact U'|eapply done_add; exact A|]. cbn. intros u h' tmo' p. rewrite nth_snoc.
      destruct (Nat.eqb u _); [intros E; injection E as <- <- <-; auto|auto].
    + injection H as <- <-. set (s1 := mkN (n_now s) (n_w s) (n_tasks s ++ [mkNT (NWait h tmo) NSending])) in *.
      assert (G : nth_error (n_tasks s1) (length (n_tasks s)) = Some (mkNT (NWait h tmo) NSending)) by (cbn; rewrite nth_snoc, Nat.eqb_refl; reflexivity).
      destruct (wait_fresh (length (n_tasks s)) h tmo s1 _ U G) as (f & w & dl & ph & E & U' & D & _). rewrite E.
      eapply fresh_frame; [exact F|apply setpc_w|exact U'|exact D|]. intros u h' tmo' p Q.
      destruct (setpc_at _ _ (n_setw w s1) _ _ _ G Q) as [[_ Y]|[N Y]]; [discriminate Y|]. cbn in Y. rewrite nth_snoc in Y.
      destruct (Nat.eqb_spec u (length (n_tasks s))); [contradiction|auto].
  - destruct (nth_error (n_tasks s) t) as [[c p]|] eqn:E; [|discriminate]. destruct c as [h tmo|]; [|discriminate]. destruct p; try discriminate.
    destruct r as [[]|e].
    + injection H as <- <-. destruct (wait_fresh t h tmo s _ U E) as (f & w & dl & ph & E' & U' & D & N). rewrite E'.
      eapply fresh_frame; [exact F|apply setpc_w|exact U'|exact D|]. intros u h' tmo' p Q.
      destruct (setpc_at _ _ (n_setw w s) _ _ _ E Q) as [[-> Y]|[_ Y]]; [|auto]. cbn in Y. injection Y as -> -> ->. right. split; [reflexivity|]. split.
      * apply (in_sent t _ (n_now s)). apply in_or_app. right. left. reflexivity.
      * intros m Q'. destruct (N m Q').
    + injection H as <- <-. eapply fresh_frame; [exact F|apply setpc_w|exact U|apply done_refl|]. intros u h' tmo' p Q.
      destruct (setpc_at _ _ s _ _ _ E Q) as [[-> Y]|[_ Y]]; [|auto]. cbn in Y. injection Y as -> -> ->. auto.
    + injection H as <- <-. eapply fresh_frame; [exact F|apply setpc_w|exact U|apply done_refl|]. intros u h' tmo' p Q.
      destruct (setpc_at _ _ s _ _ _ E Q) as [[-> Y]|[_ Y]]; [|auto]. cbn in Y. injection Y as -> -> ->. auto.
  - destruct m; try discriminate. set (mm := VObj _ _) in *. destruct (message_received mm (n_w s)) as [w r] eqn:E. injection H as <- <-.
    unfold message_received in E. subst mm. cbv beta iota zeta in E. set (m := VObj _ _) in *.
    destruct (dget Z.eqb (hid m) (w_sess (n_w s))) as [f|] eqn:G; [|injection E as <- <-; eapply fresh_frame; [exact F|reflexivity|exact U|apply done_refl|auto]].
    assert (P : undone (pop_sess (hid m) (n_w s))) by (apply undone_pop, U).
    destruct (nth_error (w_futs (n_w s)) f) as [[|v|]|] eqn:N.
    + injection E as <- <-. set (w := set_fut f (FDone m) (pop_sess (hid m) (n_w s))).
      assert (FD : forall g v, nth_error (w_futs w) g = Some (FDone v) -> (g = f /\ v = m) \/ nth_error (w_futs (n_w s)) g = Some (FDone v)).
      { intros g v. subst w. unfold set_fut. cbn. rewrite nth_upd, N. destruct (Nat.eqb_spec f g) as [->|]; [intros Q; injection Q as <-; auto|auto]. }
      assert (OW : forall g h, nth_error own g = Some h -> g = f -> h = hid m).
      { intros g h O ->. pose proof (o_sess own s W _ _ G). congruence. }
      constructor.
      * intros h g v Q Q'. cbn [n_w n_setw] in *. destruct (FD g v Q') as [[-> ->]|Q2].
        -- assert (h <> hid m). { intros ->. subst w. unfold set_fut, pop_sess in Q. cbn in Q. rewrite dget_ddel_same in Q. discriminate. }
           apply (ddel_sub (hid m)) in Q. apply (o_sess own s W) in Q. apply H. eapply OW; [exact Q|reflexivity].
        -- apply (ddel_sub (hid m)) in Q. exact (U _ _ _ Q Q2).
      * intros u h tmo p Q. cbn [n_w n_setw n_tasks] in *. pose proof (T u h tmo p Q) as O. pose proof (o_task own s W u _ Q) as OT. cbn [n_pc n_call ncall_hid] in OT.
        assert (NEW : sent_ok u tr = true -> came u (hid m) m (tr ++ nstamp (n_now s) [NRecv m (Ok true)])).
        { intros S. split; [reflexivity|]. exists (n_now s). rewrite since_sent_app, S. apply in_or_app. right. left. reflexivity. }
        destruct p as [|h' g dl ph|h' g|r]; auto.
        -- destruct O as (A & B & C). split; [exact A|]. split; [apply sent_more, B|]. intros v Q'. destruct (FD g v Q') as [[-> ->]|Q2].
           ++ subst h'. replace h with (hid m) by (symmetry; apply (OW f); [apply OT|reflexivity]). auto.
           ++ apply came_more; auto.
        -- destruct O as (A & B & C). split; [exact A|]. split; [apply sent_more, B|]. intros v Q'. destruct (FD g v Q') as [[-> ->]|Q2].
           ++ subst h'. replace h with (hid m) by (symmetry; apply (OW f); [apply OT|reflexivity]). auto.
           ++ apply came_more; auto.
        -- destruct r; auto. destruct O as [A B]. split; [apply sent_more, A|apply came_more; auto].
    + injection E as <- <-. eapply fresh_frame; [exact F|reflexivity|exact P|apply done_pop|auto].
    + injection E as <- <-. eapply fresh_frame; [exact F|reflexivity|exact P|apply done_pop|auto].
    + injection E as <- <-. eapply fresh_frame; [exact F|reflexivity|exact P|apply done_pop|auto].
  - destruct (nth_error (n_tasks s) t) as [[c p]|] eqn:E; [|discriminate]. destruct p as [|h f dl ph| |]; try discriminate. destruct ph; try discriminate.
    destruct (dl <=? n_now s); [|discriminate]. injection H as <- <-. cbn [nstamp map]. rewrite app_nil_r. rewrite <- (app_nil_r tr).
    eapply fresh_frame; [exact F|apply setpc_w|exact U|apply done_refl|]. intros u h' tmo' p Q.
    destruct (setpc_at _ _ s _ _ _ E Q) as [[-> Y]|[_ Y]]; [|auto]. cbn in Y. injection Y as <- ->. right. specialize (T _ _ _ _ E). cbn in T. rewrite app_nil_r. exact T.
  - destruct (nth_error (n_tasks s) t) as [[c p]|] eqn:E; [|discriminate].
    assert (PO : forall h, undone (pop_sess h (n_w s))) by (intros h; apply undone_pop, U).
    destruct p as [|h f dl ph|h f|]; try discriminate.
    + unfold n_resume in H. destruct (nth_error (w_futs (n_w s)) f) as [[|v|]|] eqn:N; destruct ph; try discriminate H; injection H as <- <-.
      all: eapply fresh_frame; [exact F|rewrite setpc_w; reflexivity| | |]; cbn [n_w n_setw]; [first [apply PO|exact (undone_cancel f _ U)]|first [apply done_pop|apply done_cancel]|].
      all: intros u h' tmo' p Q; match type of Q with nth_error (n_tasks (n_setpc _ _ ?z)) _ = _ => destruct (setpc_at _ _ z _ _ _ E Q) as [[-> Y]|[_ Y]] end; [|auto]; cbn in Y; injection Y as <- ->; right; try exact I.
      * specialize (T _ _ _ _ E). cbn in T. destruct T as (A & B & C). split; [exact A|]. split; [apply sent_more, B|]. intros m Q'. apply done_cancel in Q'. apply came_more; auto.
      * specialize (T _ _ _ _ E). cbn in T. destruct T as (A & B & C). split; [apply sent_more, B|]. apply came_more; auto.
      * specialize (T _ _ _ _ E). cbn in T. destruct T as (A & B & C). split; [apply sent_more, B|]. apply came_more; auto.
    + injection H as <- <-. eapply fresh_frame; [exact F|apply setpc_w|apply PO|apply done_pop|]. intros u h' tmo' p Q.
      destruct (setpc_at _ _ (n_setw (pop_sess h (n_w s)) s) _ _ _ E Q) as [[-> Y]|[_ Y]]; [|auto]. cbn in Y. injection Y as <- ->. right. exact I.
  - destruct (nth_error (n_tasks s) t) as [[c p]|] eqn:E; [|discriminate].
    destruct p as [|h f dl ph|h f|]; try discriminate; injection H as <- <-.
    + eapply fresh_frame; [exact F|apply setpc_w|exact U|apply done_refl|]. intros u h' tmo' p Q.
      destruct (setpc_at _ _ s _ _ _ E Q) as [[-> Y]|[_ Y]]; [|auto]. cbn in Y. injection Y as <- ->. right. exact I.
    + eapply fresh_frame; [exact F|apply setpc_w|exact (undone_cancel f _ U)|exact (done_cancel f _)|]. intros u h' tmo' p Q.
      destruct (setpc_at _ _ (n_setw (cancel_fut f (n_w s)) s) _ _ _ E Q) as [[-> Y]|[_ Y]]; [|auto]. cbn in Y. injection Y as <- ->. right.
      specialize (T _ _ _ _ E). cbn in T. destruct T as (A & B & C). split; [exact A|]. split; [apply sent_more, B|]. intros m Q'. apply done_cancel in Q'. apply came_more; auto.
Qed.

Lemma exec_wok es s tr : nexec nstate0 es s tr -> exists own, wok own s.
Proof.
  induction 1 as [|es s tr e s' os X [own W] ST]; [exists []; constructor; cbn; [reflexivity|discriminate|intros [|?] ? ?; discriminate]|].
  destruct (step_all own s e s' os W ST) as (ext & W' & _). eauto.
Qed.
Lemma exec_fresh es s tr : nexec nstate0 es s tr -> fresh s tr.
Proof.
  induction 1 as [|es s tr e s' os X IH ST]; [constructor; cbn; [discriminate|intros [|?]; discriminate]|].
  destruct (exec_wok _ _ _ X) as [own W]. eapply fresh_step; eassumption.
Qed.
Lemma since_split u tr x : In x (since_sent u tr) -> exists a T b, tr = a ++ (T, NSent u (Ok true)) :: b /\ In x b.
Proof.
  induction tr as [|[n o] tr IH]; [intros []|].
  assert (C : In x (since_sent u tr) -> exists a T b, (n, o) :: tr = a ++ (T, NSent u (Ok true)) :: b /\ In x b).
  { intros H. destruct (IH H) as (a & T & b & -> & J). exists ((n, o) :: a), T, b. auto. }
  cbn [since_sent]. destruct o as [t c|t [[]|]|m r|t r]; auto. destruct (Nat.eqb_spec t u) as [->|]; auto. intros H. exists [], n, tr. auto.
Qed.
