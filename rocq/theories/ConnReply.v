(** Steps preserve the invariant of the waiters; replies are fresh, of the right type, first (C32, C34-C37). *)
From Coq Require Import String ZArith List Bool Lia ZifyBool ZifyNat.
From Verif Require Import Py BitStream Schema Registry Codec SpecBits BitLemmas SpecWire SpecDecode HeaderProofs ReportProofs
  Waiter Conn SpecConn ConnLemmas ConnPacket ConnAck ConnInv ConnCases ConnProps ConnCalm ConnWait.
Import ListNotations.
Open Scope list_scope.
Open Scope string_scope.
Open Scope list_scope.
Open Scope Z_scope.

Lemma upd_last {A} (l : list A) x y : upd (length l) x (l ++ [y]) = l ++ [x].
Proof. induction l as [|z l IH]; cbn; [reflexivity|]. rewrite IH. reflexivity. Qed.
Lemma w_eta w : mkW (w_sess w) (w_futs w) = w. Proof. destruct w; reflexivity. Qed.
Lemma num_range s tr : good s tr -> 0 <= Z.land (c_seq s + 1) 255 < 256.
Proof. intros (_ & SQ & _). rewrite SQ, land255. apply Z.mod_pos_bound. lia. Qed.

(** a move that keeps the session table *)
Lemma winv_move w tasks tr t x x' : winv w tasks tr -> nth_error tasks t = Some x -> slot x' = None \/ slot x' = slot x ->
  (forall h f, In (h, f) (w_sess w) -> nth_error (w_futs w) f = Some FCancelled -> quits x h f -> quits x' h f) -> (forall h f, In (h, f) (w_sess w) -> holds x h -> holds x' h) ->
  winv w (upd t x' tasks) tr.
Proof. intros I E S Q H. rewrite <- (w_eta w). apply (winv_upd w tasks tr t x); auto. Qed.
Lemma winv_pop w tasks tr t x x' h : winv w tasks tr -> nth_error tasks t = Some x -> slot x' = None ->
  (forall h' f, quits x h' f -> h' = h) -> (forall h', holds x h' -> h' = h) -> winv (pop_sess h w) (upd t x' tasks) tr.
Proof.
  intros I E S Q H. apply (winv_upd w tasks tr t x); eauto.
  - intros h' f J _ QX. apply in_ddel in J as [_ J]. cbn in J. elim J. eauto.
  - intros h' f J QX. apply in_ddel in J as [_ J]. cbn in J. elim J. eauto.
Qed.
Lemma winv_wait_start w tasks tr t x c h f dl ph w' tmo : winv w tasks tr -> nth_error tasks t = Some x -> t_call x = c -> slot x = Some (h, f) -> (forall h f, ~ quits x h f) ->
  (forall h', holds x h' -> wants c = Some h') -> wait_start f tmo w = (ph, w') ->
  winv w' (upd t (mkT c (PWait h f dl ph)) tasks) tr.
Proof.
  intros I E C S NQ HO WS. assert (M : winv w (upd t (mkT c (PWait h f dl ph)) tasks) tr).
  { apply (winv_move w tasks tr t x); [exact I|exact E|right; rewrite S; reflexivity|intros h' f' _ _ Q; elim (NQ _ _ Q)|].
    intros h' _ _ H. split; [exact (HO _ H)|exact Logic.I]. }
  unfold wait_start in WS. destruct (0 <? tmo); [injection WS as <- <-; exact M|]. destruct (nth_error (w_futs w) f) as [[]|] eqn:N; injection WS as <- <-; try exact M.
  apply (winv_cancel w _ tr t (mkT c (PWait h f dl PhExpiring)) h f); [exact M|rewrite nth_upd, Nat.eqb_refl, E; reflexivity|split; reflexivity].
Qed.
Lemma opens_winv s tr x c ses w tasks : winv (c_w s) tasks tr -> opens c s = (ses, w) -> t_call x = c ->
  (slot x = None \/ slot x = match ses, wants c with Some f, Some h => Some (h, f) | _, _ => None end) -> (forall h, wants c = Some h -> holds x h) -> winv w (tasks ++ [x]) tr.
Proof.
  intros I O C SL HO. destruct c; cbn [opens] in O.
  - injection O as <- <-. apply winv_plain; [exact I|]. destruct SL; assumption.
  - destruct (add_session h (c_w s)) as [f w1] eqn:AS. injection O as <- <-. eapply winv_open; [exact I|exact AS|exact SL|apply HO; reflexivity].
  - destruct (add_session h (c_w s)) as [f w1] eqn:AS. injection O as <- <-. eapply winv_open; [exact I|exact AS|exact SL|apply HO; reflexivity].
Qed.
Lemma step_winv s tr e s' os : good s tr -> kinds s -> winv (c_w s) (c_tasks s) tr -> step s e = Some (s', os) -> winv (c_w s') (c_tasks s') (tr ++ stamp (c_now s) os).
Proof.
  intros G K I ST. pose proof G as (IA & _). pose proof (num_range _ _ G) as NR.
  assert (WK : forall t c p h f, nth_error (c_tasks s) t = Some (mkT c p) -> (exists dl ph, p = PWait h f dl ph) \/ p = PCancel h f -> wants c = Some h).
  { intros t c p h f E [(dl & ph & ->)| ->]; pose proof (K _ _ _ E) as KK; cbn in KK; destruct c; cbn; congruence || contradiction. }
  assert (POP : forall t c p h f r, nth_error (c_tasks s) t = Some (mkT c p) -> (exists dl ph, p = PWait h f dl ph) \/ p = PCancel h f ->
     winv (pop_sess h (c_w s)) (upd t (mkT c (PDone r)) (c_tasks s)) (tr ++ stamp (c_now s) os)).
  { intros t c p h f r E P. apply winv_trace. eapply winv_pop; [exact I|exact E|reflexivity| |].
    - intros h' f' Q. destruct P as [(dl & ph & ->)| ->]; cbn in Q; [destruct ph; try contradiction|]; destruct Q; congruence.
    - intros h' [H _]. cbn in H. rewrite (WK _ _ _ _ _ E P) in H. congruence. }
  destruct (good_case _ _ _ _ _ G ST).
  - apply winv_trace. exact I.
  - apply winv_trace. exact I.
  - cbn [c_tasks c_w set_task s_num set_w set_seq s_new]. rewrite upd_last. apply winv_trace. eapply (opens_winv s tr _ c ses w); [exact I|exact H0|reflexivity|left; reflexivity|].
    intros h W. split; [exact W|]. cbn. destruct c; try discriminate. injection H as <- <- <-. right. eauto.
  - cbn [c_tasks c_w set_task s_num set_w set_seq s_new reset_ka]. rewrite upd_last. apply winv_trace. eapply (opens_winv s tr _ c ses w); [exact I|exact H0|reflexivity|left; reflexivity|].
    intros h W. split; [exact W|]. cbn. destruct c; try discriminate. left. discriminate.
  - cbn [c_tasks c_w set_task s_num set_w set_seq s_new reset_ka add_ack]. rewrite upd_last. apply winv_trace. eapply (opens_winv s tr _ c ses w); [exact I|exact H0|reflexivity| |].
    + right. unfold slot. cbn. destruct ses; reflexivity.
    + intros h W. split; [exact W|exact Logic.I].
  - cbn [c_tasks c_w set_task set_w s_new]. rewrite upd_last. apply winv_trace.
    assert (O : winv w (c_tasks s ++ [mkT (CWait h tmo) (PWait h f (c_now s + tmo) ph)]) tr).
    { eapply winv_open; [exact I|exact H|right; reflexivity|split; [reflexivity|exact Logic.I]]. }
    unfold wait_start in H0. destruct (0 <? tmo); [injection H0 as <- <-; exact O|]. destruct (nth_error (w_futs w) f) as [[]|] eqn:N; injection H0 as <- <-; try exact O.
    eapply (winv_cancel w _ tr (length (c_tasks s))); [exact O|rewrite nth_snoc, Nat.eqb_refl; reflexivity|split; reflexivity].
  - destruct (packet_frame_of _ _ _ _ _ G H0 H1) as (_ & [_ _ _ _ ->] & _).
    destruct (on_packet_wait _ _ _ _ H0 H1) as [(m & v & w & r & BR & _ & MR & -> & _)|(-> & _)]; [|apply winv_trace; exact I].
    cbn [stamp map]. change ((c_now s, ORecv bs) :: map (pair (c_now s)) os) with ([(c_now s, ORecv bs)] ++ map (pair (c_now s)) os). rewrite app_assoc. apply winv_trace.
    cbn [c_w set_w]. eapply winv_msg; [exact I|exact BR|exact MR|exact (ia_born _ _ _ _ _ IA)].
  - cbn [c_tasks c_w set_task]. apply winv_trace. eapply winv_move; [exact I|exact H|right; reflexivity|intros ? ? _ _ []|]. intros h f _ HH. exact HH.
  - cbn [c_tasks c_w set_task]. apply winv_trace. eapply winv_move; [exact I|exact H|right; reflexivity|intros ? ? _ _ []|]. intros h' f' _ HH. exact HH.
  - cbn [c_tasks c_w set_task set_ack]. apply winv_trace. eapply winv_move; [exact I|exact H|right; reflexivity|intros ? ? _ _ []|]. intros h f _ HH. exact HH.
  - subst s' os. cbn [c_tasks c_w set_task]. apply winv_trace. eapply winv_move; [exact I|exact H|left; reflexivity|intros ? ? _ _ []|].
    intros h f _ [W _]. pose proof (good_sess _ _ G _ _ _ _ _ _ _ H) as SO. cbn in W. destruct c; [discriminate|congruence|contradiction].
  - cbn [c_tasks c_w set_task set_w]. apply winv_trace. eapply (winv_wait_start (c_w s)); [exact I|exact H|reflexivity|reflexivity|intros ? ? []|intros h' [W _]; exact W|exact H2].
  - cbn [c_tasks c_w set_task]. apply winv_trace. eapply winv_move; [exact I|exact H|right; reflexivity|intros ? ? _ _ []|]. intros h f _ HH. exact HH.
  - cbn [c_tasks c_w set_task set_ackq]. apply winv_trace. eapply winv_move; [exact I|exact H|left; reflexivity|intros ? ? _ _ []|].
    intros h f _ [W _]. pose proof (good_sess _ _ G _ _ _ _ _ _ _ H) as SO. cbn in W. destruct c; [discriminate|congruence|contradiction].
  - cbn [c_tasks c_w set_task set_w set_ackq]. apply winv_trace. eapply (winv_wait_start (c_w s)); [exact I|exact H|reflexivity|reflexivity|intros ? ? []|intros h' [W _]; exact W|exact H1].
  - cbn [c_tasks c_w set_task]. apply winv_trace. eapply winv_move; [exact I|exact H|left; reflexivity|intros ? ? _ _ []|].
    intros h f _ [W _]. split; [exact W|]. cbn in *. pose proof (good_sess _ _ G _ _ _ _ _ _ _ H) as SO. destruct c; [discriminate|left; discriminate|contradiction].
  - eapply POP; [exact H|left; eauto].
  - eapply POP; [exact H|left; eauto].
  - cbn [c_tasks c_w set_task set_w]. apply winv_trace.
    assert (M : winv (c_w s) (upd t (mkT c (PWait h f dl PhExpiring)) (c_tasks s)) tr).
    { eapply winv_move; [exact I|exact H|right; reflexivity|intros ? ? _ _ []|]. intros h' f' _ HH. exact HH. }
    replace (set_fut f FCancelled (c_w s)) with (cancel_fut f (c_w s)) by (unfold cancel_fut; rewrite H0; reflexivity).
    eapply (winv_cancel _ _ tr t); [exact M|rewrite nth_upd, Nat.eqb_refl, H; reflexivity|split; reflexivity].
  - eapply POP; [exact H|left; eauto].
  - eapply POP; [exact H|right; reflexivity].
  - cbn [c_tasks c_w set_task]. apply winv_trace. eapply winv_move; [exact I|exact H|left; reflexivity|intros ? ? _ _ []|].
    intros h f _ [W _]. split; [exact W|]. cbn in *. pose proof (good_sess _ _ G _ _ _ _ _ _ _ H) as SO. destruct c; [discriminate|left; discriminate|contradiction].
  - cbn [c_tasks c_w set_task set_w]. apply winv_trace.
    assert (M : winv (c_w s) (upd t (mkT c (PCancel h f)) (c_tasks s)) tr).
    { eapply winv_move; [exact I|exact H|right; reflexivity| |].
      - intros h' f' _ _ Q. cbn in Q. destruct ph; try contradiction. exact Q.
      - intros h' f' _ [W _]. split; [exact W|exact Logic.I]. }
    eapply (winv_cancel _ _ tr t); [exact M|rewrite nth_upd, Nat.eqb_refl, H; reflexivity|split; reflexivity].
  - apply winv_trace. exact I.
Qed.
Lemma exec_winv es s tr : exec conn0 es s tr -> winv (c_w s) (c_tasks s) tr.
Proof.
  induction 1 as [|es s tr e s' os X IH ST].
  - constructor; cbn; try (intros; contradiction); [constructor| |intros [] x h f m E; discriminate].
    exists []. split; [reflexivity|]. split; [intros ? ? []|]. split; [intros [] x h f E; discriminate|intros [] m E; discriminate].
  - eapply step_winv; [exact (proj1 (exec_good _ _ _ X))|exact (exec_kinds _ _ _ X)|exact IH|exact ST].
Qed.
