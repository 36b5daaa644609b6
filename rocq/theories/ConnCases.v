(** Case analysis of a step, with every resulting state spelled out. *)
From Coq Require Import String ZArith List Bool Lia ZifyBool ZifyNat.
From Verif Require Import Py BitStream Schema Registry Codec SpecBits BitLemmas HeaderProofs ReportProofs Waiter Conn SpecConn ConnLemmas ConnPacket ConnAck ConnInv.
Import ListNotations.
Open Scope list_scope.
Open Scope string_scope.
Open Scope list_scope.
Open Scope Z_scope.

(** a call with its bookkeeping record *)
Definition s_new (c : call) (s : conn) : conn :=
  mkC (c_now s) (c_up s) (c_ka s) (c_seq s) (c_ackq s) (c_acks s) (c_w s) (c_tasks s ++ [mkT c (PDone (RExc EUnmodelled))]).
(** the state after a send was numbered; [w]: waiter after the session was opened *)
Definition s_num (c : call) (w : waiter) (s : conn) : conn := set_seq (Z.land (c_seq s + 1) 255) (set_w w (s_new c s)).
(** session opened by a call *)
Definition opens (c : call) (s : conn) : option nat * waiter :=
  match c with CSend _ _ _ _ => (None, c_w s) | CSendRecv _ _ _ h _ | CWait h _ => let (f, w) := add_session h (c_w s) in (Some f, w) end.
(** phase and waiter when waiting for a message starts *)
Definition wait_start (f : nat) (tmo : Z) (w : waiter) : phase * waiter :=
  if 0 <? tmo then (PhWaiting, w) else match nth_error (w_futs w) f with Some FPending => (PhExpiring, cancel_fut f w) | _ => (PhWaiting, w) end.

Inductive case (s : conn) : event -> conn -> list obs -> Prop :=
| K_connect : case s EvConnect (reset_ka (mkC (c_now s) true (c_ka s) (c_seq s) (c_ackq s) (c_acks s) (c_w s) (c_tasks s))) []
| K_advance dt : 0 <= dt -> case s (EvAdvance dt) (mkC (c_now s + dt) (c_up s) (c_ka s) (c_seq s) (c_ackq s) (c_acks s) (c_w s) (c_tasks s)) []
| K_call_bad c cmd sep dep ses w e : payload c = Some (cmd, sep, dep) -> opens c s = (ses, w) -> send_bytes (Z.land (c_seq s + 1) 255) sep dep cmd = Err e ->
    case s (EvCall c) (set_task (length (c_tasks s)) (mkT c (PDone (RExc e))) (s_num c w s)) [OCall (length (c_tasks s)) c; ORet (length (c_tasks s)) (RExc e)]
| K_call_dup c cmd sep dep ses w bs : payload c = Some (cmd, sep, dep) -> opens c s = (ses, w) -> send_bytes (Z.land (c_seq s + 1) 255) sep dep cmd = Ok bs ->
    dmem Z.eqb (Z.land (c_seq s + 1) 255) (c_ackq s) = true ->
    case s (EvCall c) (set_task (length (c_tasks s)) (mkT c (PDone (RExc EDuplicateAck))) (reset_ka (s_num c w s)))
      (OCall (length (c_tasks s)) c :: conn_send (Some (length (c_tasks s))) bs s ++ [ORet (length (c_tasks s)) (RExc EDuplicateAck)])
| K_call_send c cmd sep dep ses w bs : payload c = Some (cmd, sep, dep) -> opens c s = (ses, w) -> send_bytes (Z.land (c_seq s + 1) 255) sep dep cmd = Ok bs ->
    dmem Z.eqb (Z.land (c_seq s + 1) 255) (c_ackq s) = false ->
    case s (EvCall c) (set_task (length (c_tasks s)) (mkT c (PAck (length (c_acks s)) (Z.land (c_seq s + 1) 255) (c_now s + send_timeout c) (if 0 <? send_timeout c then PhWaiting else PhExpiring) ses))
        (add_ack (Z.land (c_seq s + 1) 255) (reset_ka (s_num c w s))))
      (OCall (length (c_tasks s)) c :: conn_send (Some (length (c_tasks s))) bs s)
| K_call_wait h tmo f w ph w' : add_session h (c_w s) = (f, w) -> wait_start f tmo w = (ph, w') ->
    case s (EvCall (CWait h tmo)) (set_task (length (c_tasks s)) (mkT (CWait h tmo) (PWait h f (c_now s + tmo) ph)) (set_w w' (s_new (CWait h tmo) s))) [OCall (length (c_tasks s)) (CWait h tmo)]
| K_packet bs s' os : c_up s = true -> bytes_ok bs -> on_packet bs s = (s', os) -> case s (EvPacket bs) s' (ORecv bs :: os)
| K_timer_ack t c aid sq dl ses a : nth_error (c_tasks s) t = Some (mkT c (PAck aid sq dl PhWaiting ses)) -> nth_error (c_acks s) aid = Some a -> dl <= c_now s -> a_set a = false ->
    case s (EvTimer t) (set_task t (mkT c (PAck aid sq dl PhExpired ses)) s) []
| K_timer_wait t c h f dl : nth_error (c_tasks s) t = Some (mkT c (PWait h f dl PhWaiting)) -> dl <= c_now s ->
    case s (EvTimer t) (set_task t (mkT c (PWait h f dl PhExpired)) s) []
| K_rearm t c aid sq dl ses d : nth_error (c_tasks s) t = Some (mkT c (PAck aid sq dl PhWaiting ses)) -> nth_error (c_acks s) aid = Some (mkAck SQueued d true) ->
    case s (EvResume t) (set_task t (mkT c (PAck aid sq (c_now s + 1000 * d) PhWaiting ses)) (set_ack aid (mkAck SQueued d false) s)) [ORearm t d]
| K_sent t c aid sq dl st d s' os : nth_error (c_tasks s) t = Some (mkT c (PAck aid sq dl PhWaiting None)) -> nth_error (c_acks s) aid = Some (mkAck st d true) -> st <> SQueued ->
    s' = set_task t (mkT c (PDone (RBool true))) s -> os = [ORet t (RBool true)] -> case s (EvResume t) s' os
| K_sent_wait t cmd sep dep h tmo aid sq dl f st d ph w' : let c := CSendRecv cmd sep dep h tmo in
    nth_error (c_tasks s) t = Some (mkT c (PAck aid sq dl PhWaiting (Some f))) -> nth_error (c_acks s) aid = Some (mkAck st d true) -> st <> SQueued ->
    wait_start f tmo (c_w s) = (ph, w') ->
    case s (EvResume t) (set_task t (mkT c (PWait h f (c_now s + tmo) ph)) (set_w w' s)) []
| K_expiring t c aid sq dl ses : nth_error (c_tasks s) t = Some (mkT c (PAck aid sq dl PhExpired ses)) ->
    case s (EvResume t) (set_task t (mkT c (PAck aid sq dl PhExpiring ses)) s) []
| K_failed t c aid sq dl : nth_error (c_tasks s) t = Some (mkT c (PAck aid sq dl PhExpiring None)) -> dmem Z.eqb sq (c_ackq s) = true ->
    case s (EvResume t) (set_task t (mkT c (PDone (RBool false))) (set_ackq (ddel Z.eqb sq (c_ackq s)) s)) [ORet t (RBool false)]
| K_failed_wait t cmd sep dep h tmo aid sq dl f ph w' : let c := CSendRecv cmd sep dep h tmo in
    nth_error (c_tasks s) t = Some (mkT c (PAck aid sq dl PhExpiring (Some f))) -> dmem Z.eqb sq (c_ackq s) = true ->
    wait_start f tmo (c_w s) = (ph, w') ->
    case s (EvResume t) (set_task t (mkT c (PWait h f (c_now s + tmo) ph)) (set_w w' (set_ackq (ddel Z.eqb sq (c_ackq s)) s))) []
| K_key t c aid sq dl ses : nth_error (c_tasks s) t = Some (mkT c (PAck aid sq dl PhExpiring ses)) -> dmem Z.eqb sq (c_ackq s) = false ->
    case s (EvResume t) (set_task t (mkT c (PDone (RExc EKey))) s) [ORet t (RExc EKey)]
| K_reply t c h f dl ph m : nth_error (c_tasks s) t = Some (mkT c (PWait h f dl ph)) -> ph <> PhExpiring -> nth_error (w_futs (c_w s)) f = Some (FDone m) ->
    case s (EvResume t) (set_task t (mkT c (PDone (RMsg m))) (set_w (pop_sess h (c_w s)) s)) [ORet t (RMsg m)]
| K_foreign t c h f dl ph : nth_error (c_tasks s) t = Some (mkT c (PWait h f dl ph)) -> ph <> PhExpiring -> nth_error (w_futs (c_w s)) f = Some FCancelled ->
    case s (EvResume t) (set_task t (mkT c (PDone (RExc ECancelled))) (set_w (pop_sess h (c_w s)) s)) [ORet t (RExc ECancelled)]
| K_wait_expiring t c h f dl : nth_error (c_tasks s) t = Some (mkT c (PWait h f dl PhExpired)) -> nth_error (w_futs (c_w s)) f = Some FPending ->
    case s (EvResume t) (set_task t (mkT c (PWait h f dl PhExpiring)) (set_w (set_fut f FCancelled (c_w s)) s)) []
| K_timeout t c h f dl : nth_error (c_tasks s) t = Some (mkT c (PWait h f dl PhExpiring)) ->
    case s (EvResume t) (set_task t (mkT c (PDone (RExc ETimeout))) (set_w (pop_sess h (c_w s)) s)) [ORet t (RExc ETimeout)]
| K_cancelled t c h f : nth_error (c_tasks s) t = Some (mkT c (PCancel h f)) ->
    case s (EvResume t) (set_task t (mkT c (PDone (RExc ECancelled))) (set_w (pop_sess h (c_w s)) s)) [ORet t (RExc ECancelled)]
| K_cancel_send t c aid sq dl ph ses : nth_error (c_tasks s) t = Some (mkT c (PAck aid sq dl ph ses)) ->
    case s (EvCancel t) (set_task t (mkT c (PDone (RExc ECancelled))) s) [ORet t (RExc ECancelled)]
| K_cancel_wait t c h f dl ph : nth_error (c_tasks s) t = Some (mkT c (PWait h f dl ph)) ->
    case s (EvCancel t) (set_task t (mkT c (PCancel h f)) (set_w (cancel_fut f (c_w s)) s)) []
| K_keep d : c_ka s = Some d -> d <= c_now s -> case s EvKeepAlive (reset_ka s) (conn_send None [35; 3; 128] s).

Lemma start_wait_case t h f tmo s x : nth_error (c_tasks s) t = Some x ->
  start_wait t h f tmo s = set_task t (mkT (t_call x) (PWait h f (c_now s + tmo) (fst (wait_start f tmo (c_w s))))) (set_w (snd (wait_start f tmo (c_w s))) s).
Proof.
  intros E. unfold start_wait, wait_start. destruct (0 <? tmo); [rewrite (set_pc_eq _ _ _ _ E); destruct s; reflexivity|].
  destruct (nth_error (w_futs (c_w s)) f) as [[]|]; cbn [fst snd]; rewrite (set_pc_eq _ _ _ x) by exact E; destruct s; reflexivity.
Qed.
Lemma send_case s c cmd sep dep ses w : payload c = Some (cmd, sep, dep) -> opens c s = (ses, w) -> forall s' o,
  start_send (length (c_tasks s)) cmd sep dep (send_timeout c) ses (set_w w (s_new c s)) = (s', o) -> case s (EvCall c) s' (OCall (length (c_tasks s)) c :: o).
Proof.
  intros P OP s' o E. set (t := length (c_tasks s)) in *.
  assert (N : nth_error (c_tasks (s_new c s)) t = Some (mkT c (PDone (RExc EUnmodelled)))) by (cbn; rewrite nth_snoc; unfold t; rewrite Nat.eqb_refl; reflexivity).
  unfold start_send in E. cbn [c_seq set_w s_new] in E. destruct (send_bytes _ sep dep cmd) as [bs|e] eqn:SB.
  - cbn [c_ackq reset_ka set_seq set_w s_new] in E. destruct (dmem Z.eqb _ (c_ackq s)) eqn:D.
    + cbn [finish] in E. injection E as <- <-. rewrite (set_pc_eq _ _ _ (mkT c (PDone (RExc EUnmodelled)))) by exact N. cbn [t_call].
      exact (K_call_dup s c cmd sep dep ses w bs P OP SB D).
    + injection E as <- <-. rewrite (set_pc_eq _ _ _ (mkT c (PDone (RExc EUnmodelled)))) by exact N. cbn [t_call].
      exact (K_call_send s c cmd sep dep ses w bs P OP SB D).
  - cbn [finish] in E. injection E as <- <-. rewrite (set_pc_eq _ _ _ (mkT c (PDone (RExc EUnmodelled)))) by exact N. cbn [t_call].
    exact (K_call_bad s c cmd sep dep ses w e P OP SB).
Qed.
(** the case analysis needs to know that a call that has a session is a request with a reply *)
Definition sess_ok (s : conn) : Prop := forall t c aid sq dl ph ses, nth_error (c_tasks s) t = Some (mkT c (PAck aid sq dl ph ses)) ->
  match c with CSend _ _ _ _ => ses = None | CSendRecv _ _ _ _ _ => ses <> None | CWait _ _ => False end.
Lemma step_case s e s' os : sess_ok s -> step s e = Some (s', os) -> case s e s' os.
Proof.
  intros SO ST. destruct e; cbn [step] in ST.
  - injection ST as <- <-. constructor.
  - destruct (Z.leb_spec 0 dt); [|discriminate]. injection ST as <- <-. constructor. assumption.
  - fold (s_new c s) in ST. destruct (start_call (length (c_tasks s)) c (s_new c s)) as [s1 o] eqn:SC. injection ST as <- <-.
    destruct c; cbn [start_call] in SC.
    + eapply (send_case s (CSend cmd sep dep timeout) cmd sep dep None (c_w s)); try reflexivity. destruct s; exact SC.
    + destruct (add_session h (c_w (s_new _ s))) as [f w] eqn:AS. eapply (send_case s (CSendRecv cmd sep dep h timeout) cmd sep dep (Some f) w); try reflexivity; [|exact SC].
      cbn [opens]. cbn in AS. rewrite AS. reflexivity.
    + destruct (add_session h (c_w (s_new _ s))) as [f w] eqn:AS. cbn in AS.
      rewrite (start_wait_case _ _ _ _ _ (mkT (CWait h timeout) (PDone (RExc EUnmodelled)))) in SC by (cbn; rewrite nth_snoc, Nat.eqb_refl; reflexivity).
      injection SC as <- <-. cbn [t_call c_w set_w c_now s_new]. destruct (wait_start f timeout w) as [ph w'] eqn:WS. cbn [fst snd].
      exact (K_call_wait s h timeout f w ph w' AS WS).
  - destruct (c_up s && forallb is_byte bs) eqn:UP; [|discriminate]. apply andb_true_iff in UP as [U B]. destruct (on_packet bs s) as [s1 o] eqn:OP. injection ST as <- <-.
    constructor; auto. apply bytes_ok_forallb. exact B.
  - destruct (nth_error (c_tasks s) t) as [[c p]|] eqn:E; [|discriminate]. destruct p as [aid sq dl ph ses|h f dl ph| |]; try discriminate; destruct ph; try discriminate.
    + destruct (nth_error (c_acks s) aid) as [a|] eqn:N; [|discriminate]. destruct (Z.leb_spec dl (c_now s)); cbn [andb] in ST; [|discriminate]. destruct (a_set a) eqn:A; cbn [negb] in ST; [discriminate|].
      injection ST as <- <-. rewrite (set_pc_eq _ _ _ _ E). eapply K_timer_ack; eassumption.
    + destruct (Z.leb_spec dl (c_now s)); [|discriminate]. injection ST as <- <-. rewrite (set_pc_eq _ _ _ _ E). eapply K_timer_wait; eassumption.
  - destruct (nth_error (c_tasks s) t) as [[c p]|] eqn:E; [|discriminate]. cbn [t_pc] in ST.
    destruct p as [aid sq dl ph ses|h f dl ph|h f|r]; cbn [resume] in ST; [| | |discriminate].
    + pose proof (SO _ _ _ _ _ _ _ E) as C. destruct ph.
      * destruct (nth_error (c_acks s) aid) as [[st d []]|] eqn:N; try discriminate.
        assert (SE : st <> SQueued -> Some (after_send t true ses s) = Some (s', os) -> case s (EvResume t) s' os).
        { intros NQ X. injection X as X. unfold after_send in X. rewrite E in X. destruct c; try contradiction.
          - subst ses. unfold finish in X. injection X as <- <-. rewrite (set_pc_eq _ _ _ _ E). eapply K_sent; try eassumption; reflexivity.
          - destruct ses as [f|]; [|congruence]. injection X as <- <-. rewrite (start_wait_case _ _ _ _ _ _ E). cbn [t_call].
            destruct (wait_start f timeout (c_w s)) as [ph w'] eqn:WS. cbn [fst snd]. eapply K_sent_wait; eassumption. }
        destruct st; [apply SE; [discriminate|exact ST]| |apply SE; [discriminate|exact ST]].
        injection ST as <- <-. rewrite (set_pc_eq _ _ _ (mkT c (PAck aid sq dl PhWaiting ses))) by exact E. cbn [t_call]. eapply K_rearm; eassumption.
      * injection ST as <- <-. rewrite (set_pc_eq _ _ _ _ E). eapply K_expiring; eassumption.
      * assert (SOME : forall (x y : conn * list obs), Some x = Some y -> x = y) by congruence.
        destruct (dmem Z.eqb sq (c_ackq s)) eqn:D; apply SOME in ST; rename ST into X.
        -- unfold after_send in X. cbn [c_tasks set_ackq] in X. rewrite E in X. destruct c; try contradiction.
           ++ subst ses. unfold finish in X. injection X as <- <-. rewrite (set_pc_eq _ _ _ (mkT (CSend cmd sep dep timeout) (PAck aid sq dl PhExpiring None))) by exact E. eapply K_failed; eassumption.
           ++ destruct ses as [f|]; [|congruence]. injection X as <- <-. rewrite (start_wait_case _ _ _ _ _ (mkT (CSendRecv cmd sep dep h timeout) (PAck aid sq dl PhExpiring (Some f)))) by exact E. cbn [t_call c_w set_ackq c_now].
              destruct (wait_start f timeout (c_w s)) as [ph w'] eqn:WS. cbn [fst snd]. eapply K_failed_wait; eassumption.
        -- unfold finish in X. injection X as <- <-. rewrite (set_pc_eq _ _ _ _ E). eapply K_key; eassumption.
    + destruct (nth_error (w_futs (c_w s)) f) as [[|v|]|] eqn:N, ph; try discriminate; unfold finish in ST; injection ST as <- <-;
        rewrite (set_pc_eq _ _ _ (mkT c (PWait h f dl _))) by exact E; cbn [t_call];
        try (eapply K_timeout; eassumption); try (eapply K_reply; try eassumption; discriminate); try (eapply K_foreign; try eassumption; discriminate).
      unfold cancel_fut. rewrite N. eapply K_wait_expiring; eassumption.
    + unfold finish in ST. injection ST as <- <-. rewrite (set_pc_eq _ _ _ (mkT c (PCancel h f))) by exact E. eapply K_cancelled; eassumption.
  - destruct (nth_error (c_tasks s) t) as [[c p]|] eqn:E; [|discriminate]. cbn [t_pc] in ST. destruct p as [aid sq dl ph ses|h f dl ph| |]; cbn [cancel] in ST; try discriminate.
    + unfold finish in ST. injection ST as <- <-. rewrite (set_pc_eq _ _ _ _ E). eapply K_cancel_send; eassumption.
    + injection ST as <- <-. rewrite (set_pc_eq _ _ _ (mkT c (PWait h f dl ph))) by exact E. eapply K_cancel_wait; eassumption.
  - destruct (c_ka s) as [d|] eqn:K; [|discriminate]. destruct (Z.leb_spec d (c_now s)); [|discriminate].
    destruct keep_alive_bytes as (m & M & C). rewrite M, C in ST. injection ST as <- <-. eapply K_keep; eassumption.
Qed.
Lemma good_sess s tr : good s tr -> sess_ok s.
Proof. intros (I & _) t c aid sq dl ph ses E. exact (at_ses _ _ _ _ _ _ _ _ _ _ _ (ia_task _ _ _ _ _ I _ _ _ _ _ _ _ E)). Qed.
Lemma good_case s tr e s' os : good s tr -> step s e = Some (s', os) -> case s e s' os.
Proof. intros G. apply step_case. exact (good_sess _ _ G). Qed.
