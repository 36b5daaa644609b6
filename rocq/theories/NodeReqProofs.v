(** Proofs about a node's requests. *)
From Coq Require Import ZArith List Bool Lia.
From Verif Require Import Py Schema Codec Waiter Conn ConnLemmas NodeProofs NodeReq SpecNodeReq.
Import ListNotations.
Open Scope list_scope.
Open Scope Z_scope.

Lemma hits_app h a b : hits h (a ++ b) = hits h a ++ hits h b.
Proof. unfold hits. rewrite flat_map_app. reflexivity. Qed.
Definition called (t : nat) (tr : ntrace) : bool := existsb (fun e => match snd e with NCall t' _ => Nat.eqb t' t | _ => false end) tr.
Definition sent_ok (t : nat) (tr : ntrace) : bool := existsb (fun e => match snd e with NSent t' (Ok true) => Nat.eqb t' t | _ => false end) tr.
Lemma since_call_app t a b : since_call t (a ++ b) = if called t a then since_call t a ++ b else since_call t b.
Proof.
  induction a as [|[n o] a IH]; [reflexivity|]. cbn [app since_call called existsb snd]. destruct o; try exact IH.
  destruct (Nat.eqb t0 t); [reflexivity|exact IH].
Qed.
Lemma since_sent_app t a b : since_sent t (a ++ b) = if sent_ok t a then since_sent t a ++ b else since_sent t b.
Proof.
  induction a as [|[n o] a IH]; [reflexivity|]. cbn [app since_sent sent_ok existsb snd]. destruct o; try exact IH.
  destruct r as [[]|]; try exact IH. destruct (Nat.eqb t0 t); [reflexivity|exact IH].
Qed.
Lemma called_app t a b : called t (a ++ b) = called t a || called t b.
Proof. apply existsb_app. Qed.
Lemma sent_app t a b : sent_ok t (a ++ b) = sent_ok t a || sent_ok t b.
Proof. apply existsb_app. Qed.

(** ** futures belong to one message type *)
Record wok (own : list Z) (s : nstate) : Prop := mkWok {
  o_len : length own = length (w_futs (n_w s));
  o_sess : forall h f, dget Z.eqb h (w_sess (n_w s)) = Some f -> nth_error own f = Some h;
  o_task : forall t x, nth_error (n_tasks s) t = Some x ->
    match n_pc x with NWaiting h f _ _ | NCancel h f => nth_error own f = Some h /\ ncall_hid (n_call x) = h | _ => True end }.

Definition keeps (h : Z) (own : list Z) (w w' : waiter) : Prop :=
  dget Z.eqb h (w_sess w') = dget Z.eqb h (w_sess w) /\ forall f, nth_error own f = Some h -> nth_error (w_futs w') f = nth_error (w_futs w) f.
Lemma keeps_refl h own w : keeps h own w w. Proof. split; auto. Qed.
Lemma keeps_trans h own a b c : keeps h own a b -> keeps h own b c -> keeps h own a c.
Proof. intros [A B] [C D]. split; [congruence|]. intros. rewrite D, B; auto. Qed.
Lemma keeps_pop h own h' w : h' <> h -> keeps h own w (pop_sess h' w).
Proof. intros N. split; [|reflexivity]. cbn. apply dget_ddel_other. congruence. Qed.
Lemma keeps_fut h own h' f x w : nth_error own f = Some h' -> h' <> h -> keeps h own w (set_fut f x w).
Proof. intros O N. split; [reflexivity|]. intros g G. cbn. apply nth_upd_other. intros ->. congruence. Qed.
Lemma keeps_cancel h own h' f w : nth_error own f = Some h' -> h' <> h -> keeps h own w (cancel_fut f w).
Proof. intros O N. unfold cancel_fut. destruct (nth_error (w_futs w) f) as [[]|]; try apply keeps_refl. eapply keeps_fut; eassumption. Qed.
Lemma futs_cancel f w : length (w_futs (cancel_fut f w)) = length (w_futs w).
Proof. unfold cancel_fut. destruct (nth_error (w_futs w) f) as [[]|]; try reflexivity. apply upd_length. Qed.
Lemma sess_cancel f w : w_sess (cancel_fut f w) = w_sess w.
Proof. unfold cancel_fut. destruct (nth_error (w_futs w) f) as [[]|]; reflexivity. Qed.

(** adding a session *)
Lemma add_cases h w f w' : add_session h w = (f, w') ->
  (dget Z.eqb h (w_sess w) = Some f /\ w' = w) \/
  (dget Z.eqb h (w_sess w) = None /\ f = length (w_futs w) /\ w_sess w' = dset Z.eqb h f (w_sess w) /\ w_futs w' = w_futs w ++ [FPending]).
Proof.
  unfold add_session. destruct (dget Z.eqb h (w_sess w)) as [g|] eqn:E; intros H; injection H as <- <-; auto.
Qed.

Lemma sess_add own s h f w' : wok own s -> add_session h (n_w s) = (f, w') ->
  exists ext, let own' := own ++ ext in length own' = length (w_futs w') /\
    (forall h' f', dget Z.eqb h' (w_sess w') = Some f' -> nth_error own' f' = Some h') /\
    nth_error own' f = Some h /\ (forall h', h' <> h -> keeps h' own (n_w s) w').
Proof.
  intros [L S T] E. apply add_cases in E as [[E ->]|(E & -> & A & B)].
  - exists []. rewrite app_nil_r. cbn zeta. split; [exact L|]. split; [exact S|]. split; [auto|]. intros. apply keeps_refl.
  - exists [h]. cbn zeta. rewrite A, B. split; [rewrite !app_length; cbn; lia|].
    assert (X : nth_error (own ++ [h]) (length (w_futs (n_w s))) = Some h) by (rewrite <- L, nth_snoc, Nat.eqb_refl; reflexivity).
    split; [|split; [exact X|]].
    + intros h' f' G. rewrite dget_dset in G. destruct (Z.eqb_spec h' h) as [->|]; [injection G as <-; exact X|].
      apply S in G. rewrite nth_snoc. destruct (Nat.eqb_spec f' (length own)); [|exact G]. subst. apply nth_lt in G. lia.
    + intros h' N. split.
      * rewrite A, dget_dset. destruct (Z.eqb_spec h' h); [contradiction|reflexivity].
      * intros g G. rewrite B, nth_snoc. apply nth_lt in G. destruct (Nat.eqb_spec g (length (w_futs (n_w s)))); [lia|reflexivity].
Qed.
Lemma own_ext (own ext : list Z) f h : nth_error own f = Some h -> nth_error (own ++ ext) f = Some h.
Proof. intros H. rewrite nth_error_app1; [exact H|]. eapply nth_lt; exact H. Qed.

Lemma setpc_tasks t p s x : nth_error (n_tasks s) t = Some x -> n_tasks (n_setpc t p s) = upd t (mkNT (n_call x) p) (n_tasks s).
Proof. intros H. unfold n_setpc. rewrite H. reflexivity. Qed.
Lemma setpc_w t p s : n_w (n_setpc t p s) = n_w s.
Proof. unfold n_setpc. destruct (nth_error _ t); reflexivity. Qed.
Lemma setpc_now t p s : n_now (n_setpc t p s) = n_now s.
Proof. unfold n_setpc. destruct (nth_error _ t); reflexivity. Qed.
Lemma setpc_other t p s j : j <> t -> nth_error (n_tasks (n_setpc t p s)) j = nth_error (n_tasks s) j.
Proof. intros N. unfold n_setpc. destruct (nth_error (n_tasks s) t); [|reflexivity]. cbn. apply nth_upd_other. congruence. Qed.
Lemma setpc_same t p s x : nth_error (n_tasks s) t = Some x -> nth_error (n_tasks (n_setpc t p s)) t = Some (mkNT (n_call x) p).
Proof. intros H. rewrite (setpc_tasks t p s x H). eapply nth_upd_same. exact H. Qed.

(** changing the waiters and one task *)
Lemma wok_set own s w t p x : wok own s -> nth_error (n_tasks s) t = Some x -> length (w_futs w) = length (w_futs (n_w s)) ->
  (forall h f, dget Z.eqb h (w_sess w) = Some f -> dget Z.eqb h (w_sess (n_w s)) = Some f) ->
  match p with NWaiting h f _ _ | NCancel h f => nth_error own f = Some h /\ ncall_hid (n_call x) = h | _ => True end ->
  wok own (n_setpc t p (n_setw w s)).
Proof.
  intros [L S T] H LF SS P. constructor.
  - rewrite setpc_w. cbn. congruence.
  - intros h f. rewrite setpc_w. cbn. intros G. apply S, SS, G.
  - intros j y G. destruct (Nat.eq_dec j t) as [->|N].
    + rewrite (setpc_same t p (n_setw w s) x) in G by exact H. injection G as <-. exact P.
    + rewrite setpc_other in G by exact N. exact (T j y G).
Qed.
Lemma ddel_sub {V} k h (d : list (Z * V)) f : dget Z.eqb h (ddel Z.eqb k d) = Some f -> dget Z.eqb h d = Some f.
Proof. intros H. destruct (Z.eq_dec h k) as [->|N]; [rewrite dget_ddel_same in H; discriminate|]. rewrite dget_ddel_other in H by exact N. exact H. Qed.

(** one waitForMessage *)
Lemma wait_facts own s t h tmo x : wok own s -> nth_error (n_tasks s) t = Some x -> ncall_hid (n_call x) = h ->
  exists ext f w dl ph, n_wait t h tmo s = n_setpc t (NWaiting h f dl ph) (n_setw w s) /\ wok (own ++ ext) (n_wait t h tmo s) /\
    (forall h', h' <> h -> keeps h' own (n_w s) w).
Proof.
  intros W H C. unfold n_wait. destruct (add_session h (n_w s)) as [f w1] eqn:A.
  destruct (sess_add own s h f w1 W A) as (ext & X1 & X2 & X3 & X4). cbn zeta in *. exists ext, f.
  assert (W1 : forall p, match p with NWaiting h f _ _ | NCancel h f => nth_error (own ++ ext) f = Some h /\ ncall_hid (n_call x) = h | _ => True end ->
                forall w2, length (w_futs w2) = length (w_futs w1) -> (forall h f, dget Z.eqb h (w_sess w2) = Some f -> dget Z.eqb h (w_sess w1) = Some f) ->
                wok (own ++ ext) (n_setpc t p (n_setw w2 s))).
  { intros p P w2 L2 S2. assert (WB : wok (own ++ ext) (n_setw w1 s)).
    { constructor; [exact X1|exact X2|]. intros j y G. cbn in G. pose proof (o_task own s W j y G) as O. destruct (n_pc y); auto; (split; [apply own_ext|]; apply O). }
    exact (wok_set _ (n_setw w1 s) w2 t p x WB H L2 S2 P). }
  destruct (0 <? tmo) eqn:E0.
  - exists w1, (n_now s + tmo), PhWaiting. split; [reflexivity|]. split; [|exact X4].
    apply W1; [split; [exact X3|exact C]|reflexivity|auto].
  - destruct (nth_error (w_futs w1) f) as [[]|] eqn:E1.
    + exists (cancel_fut f w1), (n_now s + tmo), PhExpiring. split; [reflexivity|]. split.
      * apply W1; [split; [exact X3|exact C]|apply futs_cancel|rewrite sess_cancel; auto].
      * intros h' N. destruct (X4 h' N) as [Y1 Y2]. split; [rewrite sess_cancel; exact Y1|]. intros g G.
        rewrite <- (Y2 g G). unfold cancel_fut. rewrite E1. cbn. apply nth_upd_other. intros ->.
        apply (own_ext own ext) in G. rewrite X3 in G. congruence.
    + exists w1, (n_now s + tmo), PhWaiting. split; [reflexivity|]. split; [|exact X4].
      apply W1; [split; [exact X3|exact C]|reflexivity|auto].
    + exists w1, (n_now s + tmo), PhWaiting. split; [reflexivity|]. split; [|exact X4].
      apply W1; [split; [exact X3|exact C]|reflexivity|auto].
    + exists w1, (n_now s + tmo), PhWaiting. split; [reflexivity|]. split; [|exact X4].
      apply W1; [split; [exact X3|exact C]|reflexivity|auto].
Qed.

(** the message is for other waiters *)
Lemma received_facts own s m w r : wok own s -> message_received m (n_w s) = (w, r) ->
  length (w_futs w) = length (w_futs (n_w s)) /\ (forall h f, dget Z.eqb h (w_sess w) = Some f -> dget Z.eqb h (w_sess (n_w s)) = Some f) /\
  (forall h, hid m <> h -> keeps h own (n_w s) w).
Proof.
  intros W. unfold message_received. destruct m; intros E; try (injection E as <- <-; split; [reflexivity|]; split; [auto|intros; apply keeps_refl]).
  remember (VObj _ _) as m eqn:M. clear M. destruct (dget Z.eqb (hid m) (w_sess (n_w s))) as [f|] eqn:D.
  - assert (P : forall h f, dget Z.eqb h (w_sess (pop_sess (hid m) (n_w s))) = Some f -> dget Z.eqb h (w_sess (n_w s)) = Some f) by (intros ? ?; apply ddel_sub).
    destruct (nth_error (w_futs (n_w s)) f) as [[]|] eqn:F; injection E as <- <-.
    1: { split; [apply upd_length|]. split; [exact P|]. intros h N. eapply keeps_trans; [apply keeps_pop; exact N|].
         eapply keeps_fut; [exact (o_sess _ _ W _ _ D)|exact N]. }
    all: split; [reflexivity|]; split; [exact P|]; intros; apply keeps_pop; assumption.
  - injection E as <- <-. split; [reflexivity|]. split; [auto|]. intros; apply keeps_refl.
Qed.

Definition untouched (t : nat) (h : Z) (s : nstate) (e : nevent) : Prop :=
  match e with
  | NEvAdvance _ => True
  | NEvCall c => ncall_hid c <> h
  | NEvSent t' _ | NEvTimer t' | NEvResume t' | NEvCancel t' => t' <> t /\ forall x, nth_error (n_tasks s) t' = Some x -> ncall_hid (n_call x) <> h
  | NEvMessage m => hid m <> h
  end.
Lemma wok_snoc own s c : wok own s -> wok own (mkN (n_now s) (n_w s) (n_tasks s ++ [mkNT c NSending])).
Proof.
  intros [L S T]. constructor; [exact L|exact S|]. intros t x. cbn. rewrite nth_snoc. destruct (Nat.eqb t _); [|apply T].
  intros E. injection E as <-. exact I.
Qed.

Lemma step_all own s e s' os : wok own s -> nstep s e = Some (s', os) ->
  exists ext, wok (own ++ ext) s' /\ forall t h, untouched t h s e ->
    keeps h own (n_w s) (n_w s') /\ ((t < length (n_tasks s))%nat -> nth_error (n_tasks s') t = nth_error (n_tasks s) t).
Proof.
  intros W H.
  assert (FIN : forall t x w p, nth_error (n_tasks s) t = Some x -> length (w_futs w) = length (w_futs (n_w s)) ->
    (forall h f, dget Z.eqb h (w_sess w) = Some f -> dget Z.eqb h (w_sess (n_w s)) = Some f) ->
    (forall h, ncall_hid (n_call x) <> h -> keeps h own (n_w s) w) ->
    match p with NWaiting h f _ _ | NCancel h f => nth_error own f = Some h /\ ncall_hid (n_call x) = h | _ => True end ->
    s' = n_setpc t p (n_setw w s) -> (forall t0 h0, untouched t0 h0 s e -> t <> t0 /\ ncall_hid (n_call x) <> h0) ->
    exists ext, wok (own ++ ext) s' /\ forall t h, untouched t h s e ->
    keeps h own (n_w s) (n_w s') /\ ((t < length (n_tasks s))%nat -> nth_error (n_tasks s') t = nth_error (n_tasks s) t)).
  { intros t x w p A B C D E -> F. exists []. rewrite app_nil_r. split; [eapply wok_set; eassumption|].
    intros t0 h0 U. destruct (F t0 h0 U). rewrite setpc_w. split; [apply D; assumption|]. intros _. rewrite setpc_other by congruence. reflexivity. }
  destruct e as [dt|c|t r|m|t|t|t]; cbn [nstep] in H.
  - destruct (0 <=? dt); [|discriminate]. injection H as <- <-. exists []. rewrite app_nil_r. split; [destruct W; constructor; assumption|].
    intros. split; [apply keeps_refl|reflexivity].
  - destruct c as [h tmo|h tmo].
    + destruct (add_session h (n_w s)) as [f w] eqn:A. injection H as <- <-. destruct (sess_add own s h f w W A) as (ext & X1 & X2 & X3 & X4).
      exists ext. split.
      * constructor; [exact X1|exact X2|]. intros j y. cbn. rewrite nth_snoc. destruct (Nat.eqb j _); [intros E; injection E as <-; exact I|].
        intros G. pose proof (o_task own s W j y G) as O. destruct (n_pc y); auto; (split; [apply own_ext|]; apply O).
      * intros t0 h0 U. split; [apply X4; intros ->; apply U; reflexivity|]. intros L. cbn. rewrite nth_snoc. destruct (Nat.eqb_spec t0 (length (n_tasks s))); [lia|reflexivity].
    + injection H as <- <-. pose proof (wok_snoc own s (NWait h tmo) W) as W1.
      set (s1 := mkN (n_now s) (n_w s) (n_tasks s ++ [mkNT (NWait h tmo) NSending])) in *.
      destruct (wait_facts own s1 (length (n_tasks s)) h tmo (mkNT (NWait h tmo) NSending) W1) as (ext & f & w & dl & ph & E & W2 & K).
      { cbn. rewrite nth_snoc, Nat.eqb_refl. reflexivity. } { reflexivity. }
      exists ext. split; [exact W2|]. intros t0 h0 U. rewrite E, setpc_w. split; [apply K; intros ->; apply U; reflexivity|]. intros L.
      rewrite setpc_other by lia. cbn. rewrite nth_snoc. destruct (Nat.eqb_spec t0 (length (n_tasks s))); [lia|reflexivity].
  - destruct (nth_error (n_tasks s) t) as [[c p]|] eqn:E; [|discriminate]. destruct c as [h tmo|]; [|discriminate]. destruct p; try discriminate.
    assert (U : forall t0 h0, untouched t0 h0 s (NEvSent t r) -> t <> t0 /\ ncall_hid (NReq h tmo) <> h0).
    { intros t0 h0 [U1 U2]. split; [exact U1|]. exact (U2 _ E). }
    destruct r as [[]|e].
    + injection H as <- <-. destruct (wait_facts own s t h tmo _ W E eq_refl) as (ext & f & w & dl & ph & E' & W2 & K).
      exists ext. split; [exact W2|]. intros t0 h0 X. destruct (U t0 h0 X). rewrite E', setpc_w. split; [apply K; cbn in *; congruence|]. intros _.
      rewrite setpc_other by congruence. reflexivity.
    + injection H as <- <-. eapply (FIN t _ (n_w s) (NDone (RExc ETimeout)) E); auto. intros; apply keeps_refl. destruct s; reflexivity.
    + injection H as <- <-. eapply (FIN t _ (n_w s) (NDone (RExc e)) E); auto. intros; apply keeps_refl. destruct s; reflexivity.
  - destruct m; try discriminate. remember (VObj _ _) as m eqn:M. clear M. destruct (message_received m (n_w s)) as [w r] eqn:E. injection H as <- <-.
    destruct (received_facts own s m w r W E) as (A & B & C). exists []. rewrite app_nil_r. split.
    + destruct W as [L S T]. constructor; [cbn; congruence|intros h f G; apply S, B, G|exact T].
    + intros t0 h0 U. split; [apply C, U|reflexivity].
  - destruct (nth_error (n_tasks s) t) as [[c p]|] eqn:E; [|discriminate]. destruct p as [|h f dl ph| |]; try discriminate. destruct ph; try discriminate.
    destruct (dl <=? n_now s); [|discriminate]. injection H as <- <-.
    eapply (FIN t _ (n_w s) (NWaiting h f dl PhExpired) E); auto; [intros; apply keeps_refl|exact (o_task own s W t _ E)|destruct s; reflexivity|].
    intros t0 h0 [U1 U2]. split; [exact U1|exact (U2 _ E)].
  - destruct (nth_error (n_tasks s) t) as [[c p]|] eqn:E; [|discriminate]. pose proof (o_task own s W t _ E) as O. cbn [n_pc n_call] in O.
    assert (U : forall t0 h0, untouched t0 h0 s (NEvResume t) -> t <> t0 /\ ncall_hid c <> h0).
    { intros t0 h0 [U1 U2]. split; [exact U1|]. exact (U2 _ E). }
    destruct p as [|h f dl ph|h f|]; try discriminate.
    + destruct O as [O1 O2]. unfold n_resume in H.
      assert (P : forall p, s' = n_setpc t p (n_setw (pop_sess h (n_w s)) s) -> match p with NWaiting h f _ _ | NCancel h f => False | _ => True end -> exists ext, wok (own ++ ext) s' /\ forall t0 h, untouched t0 h s (NEvResume t) ->
          keeps h own (n_w s) (n_w s') /\ ((t0 < length (n_tasks s))%nat -> nth_error (n_tasks s') t0 = nth_error (n_tasks s) t0)).
      { intros p X Y. eapply (FIN t _ (pop_sess h (n_w s)) p E); [reflexivity|intros ? ?; apply ddel_sub| | |exact X|exact U].
        - intros h0 N. apply keeps_pop. cbn in N. congruence.
        - destruct p; auto; contradiction. }
      destruct (nth_error (w_futs (n_w s)) f) as [[|v|]|]; destruct ph; try discriminate H; injection H as <- <-;
        try (eapply P; [reflexivity|exact I]).
      eapply (FIN t _ (cancel_fut f (n_w s)) (NWaiting h f dl PhExpiring) E); [apply futs_cancel|rewrite sess_cancel; auto| |auto|reflexivity|exact U].
      intros h0 N. eapply keeps_cancel; [exact O1|cbn in N; congruence].
    + injection H as <- <-. destruct O as [O1 O2]. eapply (FIN t _ (pop_sess h (n_w s)) (NDone (RExc ECancelled)) E);
        [reflexivity|intros ? ?; apply ddel_sub| |exact I|reflexivity|exact U].
      intros h0 N. apply keeps_pop. cbn in N. congruence.
  - destruct (nth_error (n_tasks s) t) as [[c p]|] eqn:E; [|discriminate]. pose proof (o_task own s W t _ E) as O. cbn [n_pc n_call] in O.
    assert (U : forall t0 h0, untouched t0 h0 s (NEvCancel t) -> t <> t0 /\ ncall_hid c <> h0).
    { intros t0 h0 [U1 U2]. split; [exact U1|]. exact (U2 _ E). }
    destruct p as [|h f dl ph|h f|]; try discriminate; injection H as <- <-.
    + eapply (FIN t _ (n_w s) (NDone (RExc ECancelled)) E); auto; [intros; apply keeps_refl|destruct s; reflexivity].
    + destruct O as [O1 O2]. eapply (FIN t _ (cancel_fut f (n_w s)) (NCancel h f) E); [apply futs_cancel|rewrite sess_cancel; auto| |auto|reflexivity|exact U].
      intros h0 N. eapply keeps_cancel; [exact O1|cbn in N; congruence].
Qed.

(** ** traces and tasks *)
Lemma wait_call t h tmo s j x : nth_error (n_tasks (n_wait t h tmo s)) j = Some x ->
  exists y, nth_error (n_tasks s) j = Some y /\ n_call y = n_call x /\ (j <> t -> n_pc y = n_pc x).
Proof.
  unfold n_wait. destruct (add_session h (n_w s)) as [f w]. intros H.
  assert (G : forall p w', nth_error (n_tasks (n_setpc t p (n_setw w' s))) j = Some x -> exists y, nth_error (n_tasks s) j = Some y /\ n_call y = n_call x /\ (j <> t -> n_pc y = n_pc x)).
  { intros p w' G. unfold n_setpc in G. cbn in G. destruct (nth_error (n_tasks s) t) as [y|] eqn:E; [|exists x; auto].
    cbn in G. rewrite nth_upd, E in G. destruct (Nat.eqb_spec t j) as [->|]; [injection G as <-; exists y; repeat split; auto; congruence|exists x; auto]. }
  destruct (0 <? tmo); [exact (G _ _ H)|]. destruct (nth_error (w_futs w) f) as [[]|]; exact (G _ _ H).
Qed.
(** a step keeps every task's call, and finished tasks stay finished *)
Lemma step_tasks s e s' os : nstep s e = Some (s', os) ->
  (forall j x, nth_error (n_tasks s) j = Some x -> exists y, nth_error (n_tasks s') j = Some y /\ n_call y = n_call x /\
     (forall r, n_pc x = NDone r -> n_pc y = NDone r)) /\
  (length (n_tasks s') = length (n_tasks s) + match e with NEvCall _ => 1 | _ => 0 end)%nat /\
  (forall c, e = NEvCall c -> os = [NCall (length (n_tasks s)) c] /\ exists y, nth_error (n_tasks s') (length (n_tasks s)) = Some y /\ n_call y = c) /\
  (forall t c, In (NCall t c) os -> t = length (n_tasks s) /\ e = NEvCall c) /\
  (forall t r, In (NRet t r) os -> exists y, nth_error (n_tasks s') t = Some y /\ n_pc y = NDone r) /\
  (forall t r, In (NSent t r) os -> e = NEvSent t r) /\
  (forall m r, In (NRecv m r) os -> e = NEvMessage m /\ os = [NRecv m r] /\ r = snd (message_received m (n_w s))) /\
  n_now s <= n_now s' /\ (match e with NEvAdvance _ => True | _ => n_now s' = n_now s end).
Proof.
  assert (WL : forall t h tmo s, length (n_tasks (n_wait t h tmo s)) = length (n_tasks s) /\ n_now (n_wait t h tmo s) = n_now s).
  { intros t h tmo s0. unfold n_wait. destruct (add_session h (n_w s0)) as [f w].
    assert (G : forall p w', length (n_tasks (n_setpc t p (n_setw w' s0))) = length (n_tasks s0) /\ n_now (n_setpc t p (n_setw w' s0)) = n_now s0).
    { intros. rewrite setpc_now. unfold n_setpc. cbn. destruct (nth_error (n_tasks s0) t); [cbn; rewrite upd_length|]; auto. }
    destruct (0 <? tmo); [apply G|]. destruct (nth_error (w_futs w) f) as [[]|]; apply G. }
  assert (WF : forall t h tmo s j x, nth_error (n_tasks s) j = Some x -> exists y, nth_error (n_tasks (n_wait t h tmo s)) j = Some y).
  { intros t h tmo s0 j x H. destruct (nth_error (n_tasks (n_wait t h tmo s0)) j) eqn:E; [eauto|]. apply nth_error_None in E. rewrite (proj1 (WL t h tmo s0)) in E. apply nth_lt in H. lia. }
  assert (SP : forall t w p x0, nth_error (n_tasks s) t = Some x0 -> (forall r, n_pc x0 <> NDone r) -> s' = n_setpc t p (n_setw w s) ->
     (forall j x, nth_error (n_tasks s) j = Some x -> exists y, nth_error (n_tasks s') j = Some y /\ n_call y = n_call x /\
     (forall r, n_pc x = NDone r -> n_pc y = NDone r)) /\ length (n_tasks s') = length (n_tasks s) /\ n_now s' = n_now s /\
     exists y, nth_error (n_tasks s') t = Some y /\ n_pc y = p).
  { intros t w p x0 H0 ND ->. split; [|split; [|split; [rewrite setpc_now; reflexivity|]]].
    - intros j x H. destruct (Nat.eq_dec j t) as [->|N].
      + rewrite (setpc_same t p (n_setw w s) x H). eexists. split; [reflexivity|]. split; [reflexivity|]. intros r R. exfalso. assert (x = x0) by congruence. subst. exact (ND r R).
      + rewrite setpc_other by exact N. exists x. auto.
    - unfold n_setpc. cbn. rewrite H0. cbn. apply upd_length.
    - rewrite (setpc_same t p (n_setw w s) x0 H0). eexists; split; reflexivity. }
  intros H. destruct e as [dt|c|t r|m|t|t|t]; cbn [nstep] in H.
  - destruct (Z.leb_spec 0 dt); [|discriminate]. injection H as <- <-. cbn. repeat split; try tauto; try lia; try discriminate. intros j x G. exists x. auto.
  - destruct c as [h tmo|h tmo].
    + destruct (add_session h (n_w s)) as [f w] eqn:A. injection H as <- <-. cbn [n_tasks n_now]. split.
      { intros j x G. exists x. rewrite nth_snoc. apply nth_lt in G as L. destruct (Nat.eqb_spec j (length (n_tasks s))); [lia|auto]. }
      split; [rewrite app_length; cbn; lia|]. split.
      { intros c E. injection E as <-. split; [reflexivity|]. eexists. rewrite nth_snoc, Nat.eqb_refl. split; reflexivity. }
      split; [intros t c [E|[]]; injection E as <- <-; auto|]. split; [intros t r [E|[]]; discriminate|]. split; [intros t r [E|[]]; discriminate|].
      split; [intros m r [E|[]]; discriminate|]. split; [lia|reflexivity].
    + injection H as <- <-. set (s1 := mkN (n_now s) (n_w s) (n_tasks s ++ [mkNT (NWait h tmo) NSending])).
      destruct (WL (length (n_tasks s)) h tmo s1) as [L1 L2]. split.
      { intros j x G. apply nth_lt in G as L. assert (G1 : nth_error (n_tasks s1) j = Some x).
        { cbn. rewrite nth_snoc. destruct (Nat.eqb_spec j (length (n_tasks s))); [lia|exact G]. }
        destruct (WF (length (n_tasks s)) h tmo s1 j x G1) as [y Y]. exists y. split; [exact Y|].
        destruct (wait_call _ _ _ _ _ _ Y) as (z & Z1 & Z2 & Z3). assert (z = x) by congruence. subst z. split; [auto|]. intros r R. rewrite <- Z3; [exact R|lia]. }
      split; [rewrite L1; cbn; rewrite app_length; cbn; lia|]. split.
      { intros c E. injection E as <-. split; [reflexivity|]. assert (G1 : nth_error (n_tasks s1) (length (n_tasks s)) = Some (mkNT (NWait h tmo) NSending)).
        { cbn. rewrite nth_snoc, Nat.eqb_refl. reflexivity. }
        destruct (WF (length (n_tasks s)) h tmo s1 _ _ G1) as [y Y]. exists y. split; [exact Y|].
        destruct (wait_call _ _ _ _ _ _ Y) as (z & Z1 & Z2 & Z3). rewrite G1 in Z1. injection Z1 as <-. auto. }
      split; [intros t c [E|[]]; injection E as <- <-; auto|]. split; [intros t r [E|[]]; discriminate|]. split; [intros t r [E|[]]; discriminate|].
      split; [intros m r [E|[]]; discriminate|]. rewrite L2. split; [cbn; lia|reflexivity].
  - destruct (nth_error (n_tasks s) t) as [[c p]|] eqn:E; [|discriminate]. destruct c as [h tmo|]; [|discriminate]. destruct p; try discriminate.
    destruct r as [[]|e].
    + injection H as <- <-. destruct (WL t h tmo s) as [L1 L2]. split.
      { intros j x G. destruct (WF t h tmo s j x G) as [y Y]. exists y. split; [exact Y|].
        destruct (wait_call _ _ _ _ _ _ Y) as (z & Z1 & Z2 & Z3). assert (z = x) by congruence. subst z. split; [auto|]. intros r R.
        destruct (Nat.eq_dec j t) as [->|N]; [|rewrite <- Z3 by exact N; exact R]. rewrite E in G. injection G as <-. discriminate. }
      split; [lia|]. split; [discriminate|]. split; [intros t0 c0 [X|[]]; discriminate|]. split; [intros t0 c0 [X|[]]; discriminate|].
      split; [intros t0 r0 [X|[]]; congruence|]. split; [intros m r [X|[]]; discriminate|]. rewrite L2. split; [lia|reflexivity].
    + injection H as <- <-. destruct (SP t (n_w s) (NDone (RExc ETimeout)) _ E) as (A & B & C & D); [discriminate|destruct s; reflexivity|].
      split; [exact A|]. split; [lia|]. split; [discriminate|]. split; [intros t0 c0 [X|[X|[]]]; discriminate|].
      split; [intros t0 c0 [X|[X|[]]]; [discriminate|injection X as <- <-; exact D]|].
      split; [intros t0 r0 [X|[X|[]]]; [congruence|discriminate]|]. split; [intros m r [X|[X|[]]]; discriminate|]. split; [lia|exact C].
    + injection H as <- <-. destruct (SP t (n_w s) (NDone (RExc e)) _ E) as (A & B & C & D); [discriminate|destruct s; reflexivity|].
      split; [exact A|]. split; [lia|]. split; [discriminate|]. split; [intros t0 c0 [X|[X|[]]]; discriminate|].
      split; [intros t0 c0 [X|[X|[]]]; [discriminate|injection X as <- <-; exact D]|].
      split; [intros t0 r0 [X|[X|[]]]; [congruence|discriminate]|]. split; [intros m r [X|[X|[]]]; discriminate|]. split; [lia|exact C].
  - destruct m; try discriminate. remember (VObj _ _) as m eqn:M. clear M. destruct (message_received m (n_w s)) as [w r] eqn:E. injection H as <- <-.
    cbn [n_tasks n_setw n_now]. split; [intros j x G; exists x; auto|]. split; [lia|]. split; [discriminate|]. split; [intros t0 c0 [X|[]]; discriminate|].
    split; [intros t0 c0 [X|[]]; discriminate|]. split; [intros t0 c0 [X|[]]; discriminate|]. split; [|split; [lia|reflexivity]].
    intros m' r' [X|[]]. injection X as <- <-. rewrite E. auto.
  - destruct (nth_error (n_tasks s) t) as [[c p]|] eqn:E; [|discriminate]. destruct p as [|h f dl ph| |]; try discriminate. destruct ph; try discriminate.
    destruct (dl <=? n_now s); [|discriminate]. injection H as <- <-. destruct (SP t (n_w s) (NWaiting h f dl PhExpired) _ E) as (A & B & C & D); [discriminate|destruct s; reflexivity|].
    split; [exact A|]. split; [lia|]. split; [discriminate|]. split; [intros t0 c0 []|]. split; [intros t0 c0 []|]. split; [intros t0 c0 []|]. split; [intros t0 c0 []|]. split; [lia|exact C].
  - destruct (nth_error (n_tasks s) t) as [[c p]|] eqn:E; [|discriminate].
    assert (P : forall p' w, s' = n_setpc t p' (n_setw w s) -> (forall r, p <> NDone r) -> (os = [] \/ exists r, p' = NDone r /\ os = [NRet t r]) ->
      (forall j x, nth_error (n_tasks s) j = Some x -> exists y, nth_error (n_tasks s') j = Some y /\ n_call y = n_call x /\
     (forall r, n_pc x = NDone r -> n_pc y = NDone r)) /\
      (length (n_tasks s') = length (n_tasks s) + 0)%nat /\
  (forall c, NEvResume t = NEvCall c -> os = [NCall (length (n_tasks s)) c] /\ exists y, nth_error (n_tasks s') (length (n_tasks s)) = Some y /\ n_call y = c) /\
  (forall t0 c, In (NCall t0 c) os -> t0 = length (n_tasks s) /\ NEvResume t = NEvCall c) /\
  (forall t r, In (NRet t r) os -> exists y, nth_error (n_tasks s') t = Some y /\ n_pc y = NDone r) /\
  (forall t0 r, In (NSent t0 r) os -> NEvResume t = NEvSent t0 r) /\
  (forall m r, In (NRecv m r) os -> NEvResume t = NEvMessage m /\ os = [NRecv m r] /\ r = snd (message_received m (n_w s))) /\
  n_now s <= n_now s' /\ n_now s' = n_now s).
    { intros p' w X ND O. destruct (SP t w p' _ E) as (A & B & C & D); [exact ND|exact X|].
      split; [exact A|]. split; [lia|]. split; [discriminate|]. destruct O as [->|(r & -> & ->)].
      - split; [intros t0 c0 []|]. split; [intros t0 c0 []|]. split; [intros t0 c0 []|]. split; [intros t0 c0 []|]. split; [lia|exact C].
      - split; [intros t0 c0 [Y|[]]; discriminate|]. split; [intros t0 c0 [Y|[]]; injection Y as <- <-; exact D|].
        split; [intros t0 c0 [Y|[]]; discriminate|]. split; [intros t0 c0 [Y|[]]; discriminate|]. split; [lia|exact C]. }
    destruct p as [|h f dl ph|h f|]; try discriminate.
    + unfold n_resume in H. destruct (nth_error (w_futs (n_w s)) f) as [[|v|]|]; destruct ph; try discriminate H; injection H as <- <-;
        (eapply P; [reflexivity|discriminate|eauto]).
    + injection H as <- <-. eapply P; [reflexivity|discriminate|eauto].
  - destruct (nth_error (n_tasks s) t) as [[c p]|] eqn:E; [|discriminate].
    destruct p as [|h f dl ph|h f|]; try discriminate; injection H as <- <-.
    + destruct (SP t (n_w s) (NDone (RExc ECancelled)) _ E) as (A & B & C & D); [discriminate|destruct s; reflexivity|].
      split; [exact A|]. split; [lia|]. split; [discriminate|].
      split; [intros t0 c0 [Y|[]]; discriminate|]. split; [intros t0 c0 [Y|[]]; injection Y as <- <-; exact D|].
      split; [intros t0 c0 [Y|[]]; discriminate|]. split; [intros t0 c0 [Y|[]]; discriminate|]. split; [lia|exact C].
    + destruct (SP t (cancel_fut f (n_w s)) (NCancel h f) _ E) as (A & B & C & D); [discriminate|reflexivity|].
      split; [exact A|]. split; [lia|]. split; [discriminate|]. split; [intros t0 c0 []|]. split; [intros t0 c0 []|]. split; [intros t0 c0 []|]. split; [intros t0 c0 []|]. split; [lia|exact C].
Qed.

Lemma in_stamp n a os o : In (a, o) (nstamp n os) -> a = n /\ In o os.
Proof. unfold nstamp. intros H. apply in_map_iff in H as (x & E & I). injection E as -> ->. auto. Qed.
Lemma stamp_in n os o : In o os -> In (n, o) (nstamp n os).
Proof. intros. apply in_map. assumption. Qed.

(** the trace tells the task table *)
Record told (s : nstate) (tr : ntrace) : Prop := mkTold {
  t_c : forall n t c, In (n, NCall t c) tr -> exists x, nth_error (n_tasks s) t = Some x /\ n_call x = c;
  t_t : forall t x, nth_error (n_tasks s) t = Some x -> exists n, In (n, NCall t (n_call x)) tr;
  t_r : forall n t r, In (n, NRet t r) tr -> exists x, nth_error (n_tasks s) t = Some x /\ n_pc x = NDone r;
  t_n : forall n o, In (n, o) tr -> n <= n_now s }.
Lemma exec_told es s tr : nexec nstate0 es s tr -> told s tr.
Proof.
  induction 1 as [|es s tr e s' os X IH ST]; [constructor; cbn; try tauto; intros [|t] x H; discriminate|].
  destruct IH as [C T R N]. destruct (step_tasks s e s' os ST) as (A & L & NC & OC & OR & _ & _ & NN & _). constructor.
  - intros n t c I. apply in_app_or in I as [I|I].
    + destruct (C n t c I) as (x & X1 & X2). destruct (A t x X1) as (y & Y1 & Y2 & _). exists y. split; [exact Y1|congruence].
    + apply in_stamp in I as [_ I]. apply OC in I as [-> ->]. destruct (NC c eq_refl) as [_ Y]. exact Y.
  - intros t y Y. apply nth_lt in Y as LT. destruct (Nat.ltb_spec t (length (n_tasks s))) as [Q|Q].
    + destruct (nth_error (n_tasks s) t) as [x|] eqn:E; [|apply nth_error_None in E; lia]. destruct (A t x E) as (y' & Y1 & Y2 & _).
      assert (y' = y) by congruence. subst y'. rewrite Y2. destruct (T t x E) as [n I]. exists n. apply in_or_app. auto.
    + destruct e; try lia. destruct (NC c eq_refl) as [-> (z & Z1 & Z2)]. assert (t = length (n_tasks s)) by lia. subst t.
      assert (z = y) by congruence. subst z. exists (n_now s). apply in_or_app. right. rewrite Z2. left. reflexivity.
  - intros n t r I. apply in_app_or in I as [I|I].
    + destruct (R n t r I) as (x & X1 & X2). destruct (A t x X1) as (y & Y1 & Y2 & Y3). exists y. auto.
    + apply in_stamp in I as [_ I]. apply OR. exact I.
  - intros n o I. apply in_app_or in I as [I|I]; [specialize (N n o I); lia|]. apply in_stamp in I as [-> _]. exact NN.
Qed.
Lemma called_told s tr t : told s tr -> called t tr = (t <? length (n_tasks s))%nat.
Proof.
  intros [C T _ _]. apply eq_true_iff_eq. unfold called. rewrite existsb_exists, Nat.ltb_lt. split.
  - intros ([n o] & I & E). cbn in E. destruct o; try discriminate. apply Nat.eqb_eq in E. subst. destruct (C _ _ _ I) as (x & X & _). eapply nth_lt; exact X.
  - intros L. destruct (nth_error (n_tasks s) t) as [x|] eqn:E; [|apply nth_error_None in E; lia]. destruct (T t x E) as [n I].
    exists (n, NCall t (n_call x)). split; [exact I|]. apply Nat.eqb_refl.
Qed.

(** ** one request for messages of type h, with no other caller waiting for them *)
Section Alone.
Context (t : nat) (h tmo : Z).
Definition quiet (w : waiter) (l : list (Z * val * res bool)) : Prop :=
  match l with
  | [] => exists f, dget Z.eqb h (w_sess w) = Some f /\ nth_error (w_futs w) f = Some FPending
  | (_, _, x) :: rest => x = Ok true /\ Forall (fun e => snd e = Ok false) rest /\ dget Z.eqb h (w_sess w) = None
  end.
Definition at_time (T : Z) (tr : ntrace) : Prop := In (T, NSent t (Ok true)) tr /\ forall T', In (T', NSent t (Ok true)) tr -> T' = T.
Definition waitok (s : nstate) (T : Z) (f : nat) (ph : phase) (l : list (Z * val * res bool)) : Prop :=
  (ph <> PhWaiting -> T + tmo <= n_now s) /\
  match l with
  | [] => ph <> PhExpiring -> nth_error (w_futs (n_w s)) f = Some FPending /\ dget Z.eqb h (w_sess (n_w s)) = Some f
  | (a, m, _) :: _ => (nth_error (w_futs (n_w s)) f = Some (FDone m) /\ ph <> PhExpiring) \/ (T + tmo <= a /\ ph = PhExpiring)
  end.
Definition doneok (s : nstate) (T : Z) (r : result) (l : list (Z * val * res bool)) : Prop :=
  r = RExc ECancelled \/ (exists a m x rest, l = (a, m, x) :: rest /\ r = RMsg m) \/
  (r = RExc ETimeout /\ T + tmo <= n_now s /\ match l with [] => True | (a, _, _) :: _ => T + tmo <= a end).
Definition inv (s : nstate) (tr : ntrace) : Prop :=
  match nth_error (n_tasks s) t with
  | None => dget Z.eqb h (w_sess (n_w s)) = None /\ sent_ok t tr = false
  | Some x => n_call x = NReq h tmo ->
      match n_pc x with
      | NSending => sent_ok t tr = false /\ quiet (n_w s) (hits h (since_call t tr))
      | NWaiting h' f dl ph => sent_ok t tr = true /\ exists T, at_time T tr /\ h' = h /\ dl = T + tmo /\ waitok s T f ph (hits h (since_sent t tr))
      | NCancel _ _ => sent_ok t tr = true /\ exists T, at_time T tr
      | NDone r => if sent_ok t tr then exists T, at_time T tr /\ doneok s T r (hits h (since_sent t tr))
                   else quiet (n_w s) (hits h (since_call t tr))
      end
  end.
End Alone.

Section Frame.
Variable t : nat.
Variables h tmo : Z.

Lemma hits_none n os : (forall m r, In (NRecv m r) os -> hid m <> h) -> hits h (nstamp n os) = [].
Proof.
  intros H. unfold hits, nstamp. induction os as [|o os IH]; [reflexivity|]. cbn. rewrite IH by (intros; eapply H; right; eassumption).
  destruct o; try reflexivity. destruct (Z.eqb_spec (hid m) h) as [E|]; [|reflexivity]. exfalso. apply (H m handled); [left; reflexivity|exact E].
Qed.
Lemma sent_none n os : (forall r, ~ In (NSent t r) os) -> sent_ok t (nstamp n os) = false.
Proof.
  intros H. unfold sent_ok, nstamp. induction os as [|o os IH]; [reflexivity|]. cbn. rewrite IH by (intros r I; eapply H; right; exact I).
  destruct o; try reflexivity. destruct r as [[]|]; try reflexivity. destruct (Nat.eqb_spec t0 t) as [E|]; [|reflexivity]. subst. exfalso. eapply H. left. reflexivity.
Qed.
Lemma hits_call tr x : called t tr = true -> hits h x = [] -> hits h (since_call t (tr ++ x)) = hits h (since_call t tr).
Proof. intros C H. rewrite since_call_app, C, hits_app, H, app_nil_r. reflexivity. Qed.
Lemma hits_sent tr x : sent_ok t tr = true -> hits h x = [] -> hits h (since_sent t (tr ++ x)) = hits h (since_sent t tr).
Proof. intros C H. rewrite since_sent_app, C, hits_app, H, app_nil_r. reflexivity. Qed.
Lemma at_app T tr x : sent_ok t x = false -> at_time t T tr -> at_time t T (tr ++ x).
Proof.
  intros N [A B]. split; [apply in_or_app; auto|]. intros T' I. apply in_app_or in I as [I|I]; [auto|]. exfalso.
  apply not_true_iff_false in N. apply N. unfold sent_ok. apply existsb_exists. exists (T', NSent t (Ok true)). split; [exact I|apply Nat.eqb_refl].
Qed.
Lemma sent_some tr : sent_ok t tr = false -> forall T, ~ In (T, NSent t (Ok true)) tr.
Proof.
  intros N T I. apply not_true_iff_false in N. apply N. unfold sent_ok. apply existsb_exists. exists (T, NSent t (Ok true)). split; [exact I|apply Nat.eqb_refl].
Qed.

Lemma quiet_keep own w w' l : keeps h own w w' -> (forall f, dget Z.eqb h (w_sess w) = Some f -> nth_error own f = Some h) -> quiet h w l -> quiet h w' l.
Proof.
  intros [A B] O. unfold quiet. destruct l as [|[[a m] x] l].
  - intros (f & F & P). exists f. rewrite A. split; [exact F|]. rewrite B; [exact P|]. apply O. exact F.
  - rewrite A. auto.
Qed.

(** nothing about the request happens *)
Lemma inv_frame own s e s' os tr : told s tr -> wok own s -> nstep s e = Some (s', os) -> untouched t h s e -> inv t h tmo s tr ->
  (t < length (n_tasks s))%nat -> inv t h tmo s' (tr ++ nstamp (n_now s) os).
Proof.
  intros TO W ST U I L. destruct (step_all own s e s' os W ST) as (ext & W' & F). destruct (F t h U) as [K S]. specialize (S L).
  destruct (step_tasks s e s' os ST) as (_ & _ & _ & _ & _ & OS & OM & NN & _).
  assert (HN : hits h (nstamp (n_now s) os) = []). { apply hits_none. intros m r J. apply OM in J as [-> _]. exact U. }
  assert (SN : sent_ok t (nstamp (n_now s) os) = false). { apply sent_none. intros r J. apply OS in J as ->. destruct U as [U _]. congruence. }
  unfold inv in *. rewrite S. destruct (nth_error (n_tasks s) t) as [x|] eqn:E; [|apply nth_error_None in E; lia].
  intros CX. specialize (I CX). rewrite sent_app, SN, orb_false_r.
  assert (CT : called t tr = true) by (rewrite (called_told s tr t TO); apply Nat.ltb_lt; exact L).
  rewrite (hits_call tr _ CT HN). pose proof (o_task own s W t x E) as O. destruct (n_pc x) as [|h' f dl ph|h' f|r].
  - destruct I as [I1 I2]. split; [exact I1|]. eapply quiet_keep; [exact K|apply (o_sess own s W)|exact I2].
  - destruct I as [I1 (T & A & -> & -> & B & C)]. split; [exact I1|]. rewrite (hits_sent tr _ I1 HN). exists T. split; [apply at_app; assumption|].
    split; [reflexivity|]. split; [reflexivity|]. split; [intros P; specialize (B P); lia|]. destruct O as [O _]. destruct K as [K1 K2].
    rewrite K1, (K2 f O). exact C.
  - destruct I as [I1 (T & A)]. split; [exact I1|]. exists T. apply at_app; assumption.
  - destruct (sent_ok t tr) eqn:SO.
    + destruct I as (T & A & D). rewrite (hits_sent tr _ SO HN). exists T. split; [apply at_app; assumption|].
      destruct D as [D|[D|(D1 & D2 & D3)]]; [left; exact D|right; left; exact D|]. right. right. split; [exact D1|]. split; [lia|exact D3].
    + eapply quiet_keep; [exact K|apply (o_sess own s W)|exact I].
Qed.
End Frame.

Lemma inv_step own t h tmo s e s' os tr : 0 < tmo -> told s tr -> wok own s -> nstep s e = Some (s', os) ->
  alone t h (tr ++ nstamp (n_now s) os) -> inv t h tmo s tr -> inv t h tmo s' (tr ++ nstamp (n_now s) os).
Proof.
  intros TM TO W ST AL I. pose proof (step_tasks s e s' os ST) as (KT & LT & NC & OC & OR & OS & OM & NN & NE).
  assert (OTH : forall t' x, nth_error (n_tasks s) t' = Some x -> t' <> t -> ncall_hid (n_call x) <> h).
  { intros t' x X N C. destruct (t_t _ _ TO t' x X) as [n J]. apply N. apply (AL n t' (n_call x)); [apply in_or_app; auto|exact C]. }
  assert (NEW : forall c, e = NEvCall c -> ncall_hid c = h -> t = length (n_tasks s)).
  { intros c -> C. destruct (NC c eq_refl) as [-> _]. symmetry. apply (AL (n_now s) (length (n_tasks s)) c); [|exact C]. apply in_or_app. right. left. reflexivity. }
  destruct (nth_error (n_tasks s) t) as [x|] eqn:E.
  - (* the request exists *)
    assert (L : (t < length (n_tasks s))%nat) by (eapply nth_lt; exact E).
    assert (CT : called t tr = true) by (rewrite (called_told s tr t TO); apply Nat.ltb_lt; exact L).
    destruct (KT t x E) as (y & Y1 & Y2 & _).
    assert (UN : untouched t h s e -> inv t h tmo s' (tr ++ nstamp (n_now s) os)) by (intros U; eapply inv_frame; eassumption).
    assert (TASK : forall t', t' <> t -> t' <> t /\ forall x, nth_error (n_tasks s) t' = Some x -> ncall_hid (n_call x) <> h) by (intros; split; [assumption|intros; eapply OTH; eassumption]).
    unfold inv in I. rewrite E in I. pose proof (o_task own s W t x E) as O.
    destruct e as [dt|c|t' r|m|t'|t'|t'].
    + apply UN. exact Logic.I.
    + apply UN. intros C. pose proof (NEW c eq_refl C). lia.
    + destruct (Nat.eq_dec t' t) as [->|N]; [|apply UN, TASK, N]. unfold inv. rewrite Y1. intros CY. rewrite Y2 in CY. specialize (I CY).
      cbn [nstep] in ST. rewrite E in ST. destruct x as [c p]. cbn [n_call n_pc] in *. clear Y2. subst c. destruct p; try discriminate ST. destruct I as [I1 I2].
      destruct r as [[]|ex].
      * injection ST as <- <-. cbn [nstamp map]. unfold n_wait in Y1. rewrite (proj2 (Z.ltb_lt 0 tmo) TM) in Y1.
        destruct (add_session h (n_w s)) as [f w] eqn:A. 
        assert (EW : n_wait t h tmo s = n_setpc t (NWaiting h f (n_now s + tmo) PhWaiting) (n_setw w s)).
        { unfold n_wait. rewrite A, (proj2 (Z.ltb_lt 0 tmo) TM). reflexivity. }
        rewrite (setpc_same t _ (n_setw w s) _ E) in Y1. injection Y1 as <-. cbn [n_pc]. rewrite sent_app. cbn [sent_ok existsb snd]. rewrite Nat.eqb_refl, orb_true_r.
        split; [reflexivity|]. exists (n_now s). split.
        { split; [apply in_or_app; right; left; reflexivity|]. intros T' J. apply in_app_or in J as [J|[J|[]]]; [exfalso; eapply sent_some; eassumption|congruence]. }
        split; [reflexivity|]. split; [reflexivity|]. rewrite since_sent_app, I1. cbn [since_sent]. rewrite Nat.eqb_refl. cbn [hits flat_map].
        unfold waitok. split; [congruence|]. intros _. rewrite EW, setpc_w. cbn [n_setw n_w].
        apply add_cases in A as [[A ->]|(A & -> & B & C)].
        -- unfold quiet in I2. destruct (hits h (since_call t tr)) as [|[[? ?] ?] ?]; [|destruct I2 as (_ & _ & I2); congruence].
           destruct I2 as (f' & F1 & F2). split; congruence.
        -- rewrite B, C, nth_snoc, Nat.eqb_refl, dget_dset, Z.eqb_refl. auto.
      * injection ST as <- <-. cbn [nstamp map]. rewrite (setpc_same t _ s _ E) in Y1. injection Y1 as <-. cbn [n_pc].
        assert (SN : forall n ex, sent_ok t [(n, NSent t (Ok false)); (n, NRet t (RExc ex))] = false) by reflexivity.
        rewrite sent_app, I1. cbn [sent_ok existsb snd orb]. rewrite hits_call by (assumption || reflexivity). rewrite setpc_w. exact I2.
      * injection ST as <- <-. cbn [nstamp map]. rewrite (setpc_same t _ s _ E) in Y1. injection Y1 as <-. cbn [n_pc].
        rewrite sent_app, I1. cbn [sent_ok existsb snd orb]. rewrite hits_call by (assumption || reflexivity). rewrite setpc_w. exact I2.
    + destruct (Z.eq_dec (hid m) h) as [HM|HM]; [|apply UN; exact HM].
      unfold inv. rewrite Y1. intros CY. rewrite Y2 in CY. specialize (I CY). cbn [nstep] in ST.
      assert (VM : exists k d, m = VObj k d) by (destruct m; try discriminate ST; eauto).
      assert (ST' : (let (w, r) := message_received m (n_w s) in Some (n_setw w s, [NRecv m r])) = Some (s', os)).
      { destruct VM as (k & d & ->). exact ST. } clear ST. rename ST' into ST.
      destruct (message_received m (n_w s)) as [w r] eqn:MR. injection ST as <- <-. cbn [n_setw n_tasks] in Y1. assert (y = x) by congruence. subst y. clear Y1 Y2.
      assert (MR' : dget Z.eqb h (w_sess (n_w s)) = None /\ w = n_w s /\ r = Ok false \/
                    exists f, dget Z.eqb h (w_sess (n_w s)) = Some f /\ dget Z.eqb h (w_sess w) = None /\
                      (nth_error (w_futs (n_w s)) f = Some FPending /\ r = Ok true /\ w_futs w = upd f (FDone m) (w_futs (n_w s)) \/
                       nth_error (w_futs (n_w s)) f <> Some FPending /\ w_futs w = w_futs (n_w s))).
      { destruct VM as (k & d & ->). unfold message_received in MR. rewrite HM in MR. destruct (dget Z.eqb h (w_sess (n_w s))) as [f|]; [|injection MR as <- <-; auto].
        right. exists f. split; [reflexivity|]. destruct (nth_error (w_futs (n_w s)) f) as [[]|] eqn:F; injection MR as <- <-; cbn [set_fut pop_sess w_sess w_futs];
          (split; [apply dget_ddel_same|]); first [left; auto; fail|right; split; [discriminate|reflexivity]]. }
      assert (HH : hits h (nstamp (n_now s) [NRecv m r]) = [(n_now s, m, r)]) by (cbn; rewrite HM, Z.eqb_refl; reflexivity).
      rewrite sent_app. cbn [nstamp map sent_ok existsb snd orb] in *. rewrite orb_false_r. cbn [n_setw n_w n_now].
      assert (QUIET : quiet h (n_w s) (hits h (since_call t tr)) -> quiet h w (hits h (since_call t (tr ++ [(n_now s, NRecv m r)])))).
      { rewrite since_call_app, CT, hits_app, HH. unfold quiet. destruct (hits h (since_call t tr)) as [|[[a b] z] rest]; cbn [app].
        - intros (f & F1 & F2). destruct MR' as [(M1 & _)|(f' & M1 & M2 & M3)]; [congruence|]. assert (f' = f) by congruence. subst f'.
          destruct M3 as [(_ & -> & _)|(M3 & _)]; [auto|congruence].
        - intros (Q1 & Q2 & Q3). destruct MR' as [(M1 & -> & ->)|(f' & M1 & _)]; [|congruence]. split; [exact Q1|]. split; [|exact Q3].
          apply Forall_app. split; [exact Q2|]. constructor; [reflexivity|constructor]. }
      destruct (n_pc x) as [|h' f dl ph|h' f|rr].
      * destruct I as [I1 I2]. split; [exact I1|]. auto.
      * destruct I as [I1 (T & A & -> & -> & B & C)]. split; [exact I1|]. exists T. split; [apply at_app; [reflexivity|exact A]|]. split; [reflexivity|]. split; [reflexivity|].
        rewrite since_sent_app, I1, hits_app, HH. unfold waitok. cbn [n_setw n_w n_now]. split; [exact B|].
        destruct (hits h (since_sent t tr)) as [|[[a b] z] rest]; cbn [app].
        -- destruct ph.
           ++ destruct C as [C1 C2]; [discriminate|]. left. destruct MR' as [(M1 & _)|(f' & M1 & M2 & M3)]; [congruence|]. assert (f' = f) by congruence. subst f'.
              destruct M3 as [(M3 & _ & M4)|(M3 & _)]; [|congruence]. rewrite M4. split; [eapply nth_upd_same; exact M3|discriminate].
           ++ destruct C as [C1 C2]; [discriminate|]. left. destruct MR' as [(M1 & _)|(f' & M1 & M2 & M3)]; [congruence|]. assert (f' = f) by congruence. subst f'.
              destruct M3 as [(M3 & _ & M4)|(M3 & _)]; [|congruence]. rewrite M4. split; [eapply nth_upd_same; exact M3|discriminate].
           ++ right. split; [|reflexivity]. apply B. discriminate.
        -- destruct C as [[C1 C2]|C]; [left|right; exact C]. split; [|exact C2]. destruct MR' as [(M1 & -> & _)|(f' & M1 & M2 & M3)]; [exact C1|].
           destruct M3 as [(M3 & _ & M4)|(M3 & M4)]; rewrite M4; [|exact C1]. rewrite nth_upd_other; [exact C1|]. intros ->. congruence.
      * destruct I as [I1 (T & A)]. split; [exact I1|]. exists T. apply at_app; [reflexivity|exact A].
      * destruct (sent_ok t tr) eqn:SO; [|auto]. destruct I as (T & A & D). exists T. split; [apply at_app; [reflexivity|exact A]|].
        rewrite since_sent_app, SO, hits_app, HH. destruct D as [D|[(a & b & z & rest & D1 & D2)|(D1 & D2 & D3)]]; [left; exact D| |].
        -- right. left. rewrite D1. exists a, b, z, (rest ++ [(n_now s, m, r)]). split; [reflexivity|exact D2].
        -- right. right. split; [exact D1|]. split; [exact D2|]. destruct (hits h (since_sent t tr)) as [|[[? ?] ?] ?]; cbn [app]; [exact D2|exact D3].
    + destruct (Nat.eq_dec t' t) as [->|N]; [|apply UN, TASK, N]. unfold inv. rewrite Y1. intros CY. rewrite Y2 in CY. specialize (I CY).
      cbn [nstep] in ST. rewrite E in ST. destruct x as [c p]. cbn [n_call n_pc] in *. clear Y2. subst c. destruct p as [|h' f dl ph| |]; try discriminate ST. destruct ph; try discriminate ST.
      destruct (Z.leb_spec dl (n_now s)) as [LE|]; [|discriminate ST]. injection ST as <- <-. cbn [nstamp map]. rewrite app_nil_r.
      rewrite (setpc_same t _ s _ E) in Y1. injection Y1 as <-. cbn [n_pc]. destruct I as [I1 (T & A & -> & -> & B & C)]. split; [exact I1|]. exists T. split; [exact A|]. split; [reflexivity|]. split; [reflexivity|].
      unfold waitok. rewrite setpc_w, setpc_now. split; [intros _; exact LE|]. destruct (hits h (since_sent t tr)) as [|[[a b] z] rest].
      * intros _. apply C. discriminate.
      * destruct C as [[C1 C2]|[C1 C2]]; [left; split; [exact C1|discriminate]|discriminate C2].
    + destruct (Nat.eq_dec t' t) as [->|N]; [|apply UN, TASK, N]. unfold inv. rewrite Y1. intros CY. rewrite Y2 in CY. specialize (I CY).
      cbn [nstep] in ST. rewrite E in ST. destruct x as [c p]. cbn [n_call n_pc] in *. clear Y2. subst c. destruct p as [|h' f dl ph|h' f|]; try discriminate ST.
      * destruct I as [I1 (T & A & -> & -> & B & C)]. unfold n_resume in ST.
        assert (G : forall w p' , s' = n_setpc t p' (n_setw w s) -> sent_ok t (tr ++ nstamp (n_now s) os) = true /\
                      (forall r, os = [NRet t r] -> p' = NDone r -> doneok tmo s T r (hits h (since_sent t tr)) ->
                         exists T, at_time t T (tr ++ nstamp (n_now s) os) /\ doneok tmo s' T r (hits h (since_sent t (tr ++ nstamp (n_now s) os))))).
        { intros w p' ->. split; [rewrite sent_app, I1; reflexivity|]. intros r -> -> D. exists T. split; [apply at_app; [reflexivity|exact A]|].
          rewrite hits_sent by (assumption || reflexivity). unfold doneok in *. rewrite setpc_now. exact D. }
        destruct (nth_error (w_futs (n_w s)) f) as [[|v|]|] eqn:F; destruct ph; try discriminate ST; injection ST as <- <-;
          rewrite (setpc_same t _ (n_setw _ s) _ E) in Y1; injection Y1 as <-; cbn [n_pc];
          destruct (G _ _ eq_refl) as [G1 G2]; rewrite G1; unfold waitok in *.
        -- (* expired, pending *) split; [reflexivity|]. exists T. cbn [nstamp map]. rewrite app_nil_r. split; [exact A|]. split; [reflexivity|]. split; [reflexivity|].
           unfold waitok. rewrite setpc_now. split; [intros _; apply B; discriminate|]. destruct (hits h (since_sent t tr)) as [|[[a b] z] rest]; [congruence|].
           destruct C as [[C1 _]|[C1 C2]]; [congruence|discriminate].
        -- apply G2; [reflexivity|reflexivity|]. right. right. split; [reflexivity|]. split; [apply B; discriminate|]. destruct (hits h (since_sent t tr)) as [|[[a b] z] rest]; [exact Logic.I|].
           destruct C as [[C1 C2]|[C1 C2]]; [congruence|exact C1].
        -- apply G2; [reflexivity|reflexivity|]. destruct (hits h (since_sent t tr)) as [|[[a b] z] rest]; [destruct C as [C _]; [discriminate|congruence]|].
           right. left. destruct C as [[C1 C2]|[C1 C2]]; [|discriminate]. exists a, b, z, rest. split; [reflexivity|congruence].
        -- apply G2; [reflexivity|reflexivity|]. destruct (hits h (since_sent t tr)) as [|[[a b] z] rest]; [destruct C as [C _]; [discriminate|congruence]|].
           right. left. destruct C as [[C1 C2]|[C1 C2]]; [|discriminate]. exists a, b, z, rest. split; [reflexivity|congruence].
        -- apply G2; [reflexivity|reflexivity|]. right. right. split; [reflexivity|]. split; [apply B; discriminate|]. destruct (hits h (since_sent t tr)) as [|[[a b] z] rest]; [exact Logic.I|].
           destruct C as [[C1 C2]|[C1 C2]]; [congruence|exact C1].
        -- apply G2; [reflexivity|reflexivity|]. left. reflexivity.
        -- apply G2; [reflexivity|reflexivity|]. left. reflexivity.
        -- apply G2; [reflexivity|reflexivity|]. right. right. split; [reflexivity|]. split; [apply B; discriminate|]. destruct (hits h (since_sent t tr)) as [|[[a b] z] rest]; [exact Logic.I|].
           destruct C as [[C1 C2]|[C1 C2]]; [congruence|exact C1].
        -- apply G2; [reflexivity|reflexivity|]. right. right. split; [reflexivity|]. split; [apply B; discriminate|]. destruct (hits h (since_sent t tr)) as [|[[a b] z] rest]; [exact Logic.I|].
           destruct C as [[C1 C2]|[C1 C2]]; [congruence|exact C1].
      * injection ST as <- <-. rewrite (setpc_same t _ (n_setw _ s) _ E) in Y1. injection Y1 as <-. cbn [n_pc]. destruct I as [I1 (T & A)].
        rewrite sent_app, I1. cbn [orb]. exists T. split; [apply at_app; [reflexivity|exact A]|]. left. reflexivity.
    + destruct (Nat.eq_dec t' t) as [->|N]; [|apply UN, TASK, N]. unfold inv. rewrite Y1. intros CY. rewrite Y2 in CY. specialize (I CY).
      cbn [nstep] in ST. rewrite E in ST. destruct x as [c p]. cbn [n_call n_pc] in *. clear Y2. subst c. destruct p as [|h' f dl ph|h' f|]; try discriminate ST; injection ST as <- <-.
      * rewrite (setpc_same t _ s _ E) in Y1. injection Y1 as <-. cbn [n_pc]. destruct I as [I1 I2]. rewrite sent_app, I1. cbn [orb nstamp map sent_ok existsb snd].
        rewrite hits_call by (assumption || reflexivity). rewrite setpc_w. exact I2.
      * rewrite (setpc_same t _ (n_setw _ s) _ E) in Y1. injection Y1 as <-. cbn [n_pc]. destruct I as [I1 (T & A & _)]. cbn [nstamp map]. rewrite app_nil_r. split; [exact I1|]. exists T. exact A.
  - (* not yet made *)
    unfold inv in I. rewrite E in I. destruct I as [I1 I2]. apply nth_error_None in E as L.
    assert (TASK : forall t' x, nth_error (n_tasks s) t' = Some x -> t' <> t /\ forall x, nth_error (n_tasks s) t' = Some x -> ncall_hid (n_call x) <> h).
    { intros t' x X. assert (t' <> t) by (intros ->; congruence). split; [assumption|]. intros; eapply OTH; eassumption. }
    assert (UN : untouched t h s e -> (forall c, e = NEvCall c -> length (n_tasks s) <> t) -> inv t h tmo s' (tr ++ nstamp (n_now s) os)).
    { intros U NT. destruct (step_all own s e s' os W ST) as (ext & W' & F). destruct (F t h U) as [[K _] _].
      assert (E' : nth_error (n_tasks s') t = None). { apply nth_error_None. rewrite LT. destruct e; try lia. specialize (NT c eq_refl). lia. }
      unfold inv. rewrite E', K. split; [exact I1|]. rewrite sent_app, I2. apply sent_none. intros r J. apply OS in J as ->. destruct U. congruence. }
    destruct e as [dt|c|t' r|m|t'|t'|t'].
    + apply UN; [exact Logic.I|discriminate].
    + destruct (Nat.eq_dec (length (n_tasks s)) t) as [LE|LE].
      * destruct (NC c eq_refl) as [-> (y & Y1 & Y2)]. rewrite LE in *. unfold inv. rewrite Y1. intros CY. rewrite Y2 in CY. subst c. cbn [nstep] in ST. rewrite CY in ST.
        destruct (add_session h (n_w s)) as [f w] eqn:A. injection ST as <- _. cbn [n_tasks] in Y1. rewrite nth_snoc, LE, Nat.eqb_refl in Y1. injection Y1 as <-. cbn [n_pc n_w].
        split; [rewrite sent_app, I2; reflexivity|]. rewrite since_call_app, (called_told s tr t TO), LE, Nat.ltb_irrefl. cbn [nstamp map since_call]. rewrite Nat.eqb_refl. cbn [hits flat_map].
        unfold quiet. apply add_cases in A as [[A _]|(A & -> & B & C)]; [congruence|]. eexists. rewrite B, C, dget_dset, Z.eqb_refl. split; [reflexivity|]. rewrite nth_snoc, Nat.eqb_refl. reflexivity.
      * apply UN; [|congruence]. intros C. apply LE. symmetry. exact (NEW c eq_refl C).
    + cbn [nstep] in ST. destruct (nth_error (n_tasks s) t') as [x|] eqn:X; [|discriminate]. apply UN; [exact (TASK t' x X)|discriminate].
    + destruct (Z.eq_dec (hid m) h) as [HM|HM]; [|apply UN; [exact HM|discriminate]].
      cbn [nstep] in ST. destruct m; try discriminate ST. remember (VObj _ _) as m eqn:M. unfold message_received in ST. rewrite M in ST. rewrite <- M in ST.
      rewrite HM, I1 in ST. injection ST as <- <-. unfold inv. cbn [n_setw n_tasks n_w]. rewrite E. split; [exact I1|]. rewrite sent_app, I2. reflexivity.
    + cbn [nstep] in ST. destruct (nth_error (n_tasks s) t') as [x|] eqn:X; [|discriminate]. apply UN; [exact (TASK t' x X)|discriminate].
    + cbn [nstep] in ST. destruct (nth_error (n_tasks s) t') as [x|] eqn:X; [|discriminate]. apply UN; [exact (TASK t' x X)|discriminate].
    + cbn [nstep] in ST. destruct (nth_error (n_tasks s) t') as [x|] eqn:X; [|discriminate]. apply UN; [exact (TASK t' x X)|discriminate].
Qed.

Lemma inv_exec t h tmo es s tr : 0 < tmo -> nexec nstate0 es s tr -> alone t h tr -> inv t h tmo s tr /\ exists own, wok own s.
Proof.
  intros TM. induction 1 as [|es s tr e s' os X IH ST]; intros AL.
  - split; [unfold inv; destruct t; cbn; auto|]. exists []. constructor; cbn; [reflexivity|discriminate|intros [|?] ? ?; discriminate].
  - destruct IH as [I [own W]]; [intros n t' c J; apply (AL n t' c); apply in_or_app; auto|].
    split; [eapply inv_step; try eassumption; eapply exec_told; exact X|]. destruct (step_all own s e s' os W ST) as (ext & W' & _). eauto.
Qed.

(** ** what is read off the invariant *)
Lemma ret_done es s tr : nexec nstate0 es s tr -> forall n t r, In (n, NRet t r) tr -> exists x, nth_error (n_tasks s) t = Some x /\ n_pc x = NDone r.
Proof.
  induction 1 as [|es s tr e s' os X IH ST]; intros n t r J; [destruct J|]. destruct (step_tasks s e s' os ST) as (KT & _ & _ & _ & OR & _).
  apply in_app_or in J as [J|J].
  - destruct (IH n t r J) as (x & A & B). destruct (KT t x A) as (y & C & D & E). exists y. split; [exact C|]. apply E. exact B.
  - apply in_stamp in J as [_ J]. apply OR. exact J.
Qed.
Lemma sent_in t tr : sent_ok t tr = true -> exists T, In (T, NSent t (Ok true)) tr.
Proof.
  unfold sent_ok. intros H. apply existsb_exists in H as ([T o] & A & B). destruct o; try discriminate. destruct r as [[]|]; try discriminate.
  apply Nat.eqb_eq in B. subst. eauto.
Qed.
Lemma in_sent t tr T : In (T, NSent t (Ok true)) tr -> sent_ok t tr = true.
Proof. intros H. unfold sent_ok. apply existsb_exists. exists (T, NSent t (Ok true)). split; [exact H|apply Nat.eqb_refl]. Qed.

Lemma call_task es s tr : nexec nstate0 es s tr -> forall n t c, In (n, NCall t c) tr -> exists x, nth_error (n_tasks s) t = Some x /\ n_call x = c.
Proof.
  induction 1 as [|es s tr e s' os X IH ST]; intros n t c J; [destruct J|]. destruct (step_tasks s e s' os ST) as (KT & _ & NC & OC & _).
  apply in_app_or in J as [J|J].
  - destruct (IH n t c J) as (x & A & B). destruct (KT t x A) as (y & C & D & _). exists y. split; [exact C|congruence].
  - apply in_stamp in J as [_ J]. apply OC in J as [-> ->]. apply (NC c eq_refl).
Qed.

Theorem request_answer es s tr t h tmo n T n' r : 0 < tmo -> nexec nstate0 es s tr -> alone t h tr ->
  In (n, NCall t (NReq h tmo)) tr -> In (T, NSent t (Ok true)) tr -> In (n', NRet t r) tr -> r <> RExc ECancelled ->
  match hits h (since_sent t tr) with
  | [] => r = RExc ETimeout
  | (a, m, _) :: _ => r = RMsg m \/ (r = RExc ETimeout /\ T + tmo <= a)
  end.
Proof.
  intros TM X AL C S R NR. destruct (inv_exec t h tmo es s tr TM X AL) as [I _]. destruct (ret_done es s tr X n' t r R) as (x & A & B).
  destruct (call_task es s tr X n t _ C) as (x' & A' & B'). assert (x' = x) by congruence. subst x'. unfold inv in I. rewrite A in I. specialize (I B'). rewrite B in I.
  rewrite (in_sent t tr T S) in I. destruct I as (T' & [A1 A2] & D). assert (T = T') by (apply A2; exact S). subst T'.
  destruct D as [D|[(a & m & z & rest & -> & ->)|(-> & D1 & D2)]]; [contradiction|auto|].
  destruct (hits h (since_sent t tr)) as [|[[a m] z] rest]; auto.
Qed.

Theorem request_ready es s tr t h tmo T a m z rest c h' f dl ph : 0 < tmo -> nexec nstate0 es s tr -> alone t h tr ->
  c = NReq h tmo -> nth_error (n_tasks s) t = Some (mkNT c (NWaiting h' f dl ph)) -> In (T, NSent t (Ok true)) tr ->
  hits h (since_sent t tr) = (a, m, z) :: rest -> a < T + tmo ->
  exists s', nstep s (NEvResume t) = Some (s', [NRet t (RMsg m)]).
Proof.
  intros TM X AL -> E S H LT. destruct (inv_exec t h tmo es s tr TM X AL) as [I _]. unfold inv in I. rewrite E in I. specialize (I eq_refl). cbn [n_pc] in I.
  destruct I as [_ (T' & [A1 A2] & -> & -> & _ & C)]. assert (T = T') by (apply A2; exact S). subst T'. rewrite H in C. destruct C as [[C1 C2]|[C1 C2]]; [|lia].
  cbn [nstep]. rewrite E. unfold n_resume. rewrite C1. destruct ph; try (exfalso; apply C2; reflexivity); eexists; reflexivity.
Qed.

Theorem request_failed es s tr t h tmo n : 0 < tmo -> nexec nstate0 es s tr -> alone t h tr -> In (n, NCall t (NReq h tmo)) tr ->
  (forall T, ~ In (T, NSent t (Ok true)) tr) ->
  match hits h (since_call t tr) with
  | [] => True
  | (_, _, x) :: rest => x = Ok true /\ Forall (fun e => snd e = Ok false) rest
  end.
Proof.
  intros TM X AL C N. destruct (inv_exec t h tmo es s tr TM X AL) as [I _]. destruct (call_task es s tr X n t _ C) as (x & A & B).
  unfold inv in I. rewrite A in I. specialize (I B).
  assert (SO : sent_ok t tr = false). { apply not_true_iff_false. intros S. apply sent_in in S as [T S]. exact (N T S). }
  rewrite SO in I. assert (Q : quiet h (n_w s) (hits h (since_call t tr))). { destruct (n_pc x); [apply I|destruct I; discriminate|destruct I; discriminate|exact I]. }
  unfold quiet in Q. destruct (hits h (since_call t tr)) as [|[[? ?] ?] ?]; [exact Logic.I|]. destruct Q as (Q1 & Q2 & _). auto.
Qed.

(** messages nobody asked for *)
Lemma unasked es s tr h : nexec nstate0 es s tr -> (forall n t c, In (n, NCall t c) tr -> ncall_hid c <> h) ->
  dget Z.eqb h (w_sess (n_w s)) = None /\ (exists own, wok own s) /\ (forall n m r, In (n, NRecv m r) tr -> hid m = h -> r = Ok false).
Proof.
  induction 1 as [|es s tr e s' os X IH ST]; intros AL.
  - split; [reflexivity|]. split; [|intros n m r []]. exists []. constructor; cbn; [reflexivity|discriminate|intros [|?] ? ?; discriminate].
  - destruct IH as (I & [own W] & R); [intros n t c J; apply (AL n t c); apply in_or_app; auto|].
    pose proof (step_tasks s e s' os ST) as (KT & LT & NC & OC & OR & OS & OM & NN & NE). destruct (step_all own s e s' os W ST) as (ext & W' & F).
    pose proof (exec_told es s tr X) as TO.
    assert (TASK : forall t x, nth_error (n_tasks s) t = Some x -> ncall_hid (n_call x) <> h).
    { intros t x A. destruct (t_t _ _ TO t x A) as [n J]. apply (AL n t). apply in_or_app. auto. }
    assert (D : dget Z.eqb h (w_sess (n_w s')) = None).
    { set (t := match e with NEvSent t' _ | NEvTimer t' | NEvResume t' | NEvCancel t' => S t' | _ => O end).
      assert (UN : untouched t h s e -> dget Z.eqb h (w_sess (n_w s')) = None).
      { intros U. destruct (F t h U) as [[K _] _]. rewrite K. exact I. }
      destruct e; subst t.
      - apply UN. exact Logic.I.
      - apply UN. destruct (NC c eq_refl) as [-> _]. apply (AL (n_now s) (length (n_tasks s)) c). apply in_or_app. right. left. reflexivity.
      - apply UN. split; [lia|]. intros x A. eapply TASK. exact A.
      - destruct (Z.eq_dec (hid m) h) as [HM|HM]; [|apply UN; exact HM]. cbn [nstep] in ST. destruct m; try discriminate ST.
        remember (VObj _ _) as m eqn:M. unfold message_received in ST. rewrite M in ST. rewrite <- M in ST. rewrite HM, I in ST. injection ST as <- <-. exact I.
      - apply UN. split; [lia|]. intros x A. eapply TASK. exact A.
      - apply UN. split; [lia|]. intros x A. eapply TASK. exact A.
      - apply UN. split; [lia|]. intros x A. eapply TASK. exact A. }
    split; [exact D|]. split; [eauto|]. intros n m r J HM. apply in_app_or in J as [J|J]; [eapply R; eassumption|].
    apply in_stamp in J as [_ J]. apply OM in J as (-> & _ & ->). cbn [nstep] in ST. destruct m; try discriminate ST.
    remember (VObj _ _) as m eqn:M. unfold message_received. rewrite M. rewrite <- M. rewrite HM, I. reflexivity.
Qed.
Lemma nrun_app es1 : forall es2 s, nrun s (es1 ++ es2) =
  match nrun s es1 with Some (s', tr) => match nrun s' es2 with Some (s'', tr') => Some (s'', tr ++ tr') | None => None end | None => None end.
Proof.
  induction es1 as [|e es1 IH]; intros es2 s; cbn; [destruct (nrun s es2) as [[? ?]|]; reflexivity|].
  destruct (nstep s e) as [[s1 os]|]; [|reflexivity]. rewrite IH. destruct (nrun s1 es1) as [[s2 tr]|]; [|reflexivity].
  destruct (nrun s2 es2) as [[? ?]|]; [|reflexivity]. rewrite app_assoc. reflexivity.
Qed.
Lemma nrun_exec es : forall s tr, nrun nstate0 es = Some (s, tr) -> nexec nstate0 es s tr.
Proof.
  induction es as [|e es IH] using rev_ind; intros s tr H; [injection H as <- <-; constructor|].
  rewrite nrun_app in H. destruct (nrun nstate0 es) as [[s1 tr1]|]; [|discriminate]. cbn in H. destruct (nstep s1 e) as [[s2 os]|] eqn:E; [|discriminate].
  injection H as <- <-. rewrite app_nil_r. econstructor; [apply IH; reflexivity|exact E].
Qed.
