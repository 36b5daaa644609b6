(** Proofs about whom the mailbox delivers to. *)
From Coq Require Import String ZArith List Bool Lia.
From Verif Require Import Py Schema Registry Codec Waiter MailboxM SpecMailbox MailboxProofs MailboxMore SpecMailboxTo.
From Verif Require InterviewVisit.
Import ListNotations.
Open Scope list_scope.
Open Scope string_scope.
Open Scope list_scope.
Open Scope Z_scope.

Definition aim (last : option Z) (m : val) : option Z :=
  if called "Mailbox.WakeupNotification" m then number "queueHandle" m
  else if called "Mailbox.Queue" m then
    match number "operation" m, number "queueHandle" m with
    | Some 0, h => h
    | Some 4, (Some 0 | None) => last
    | Some 4, h => h
    | _, _ => None
    end
  else None.
Lemma set_last t p s : m_last (set_mtask t p s) = m_last s. Proof. reflexivity. Qed.
Lemma pop_sends t node ho s : m_last (fst (pop_queue t node ho s)) = m_last s /\ ((exists e, snd (pop_queue t node ho s) = [MRet t (Err e)]) \/ exists h e m, ho = Some h /\ snd (pop_queue t node ho s) = [MSend (ByTask t) node m] /\ parts m = Some (POP, h, e)).
Proof.
  unfold pop_queue. destruct ho as [h|]; [|split; [reflexivity|left; eexists; reflexivity]]. destruct (pop_last (queue h s)) as [[it rest]|]; rewrite queue_msg_ok; (split; [reflexivity|]); right; eexists h, _, _; (split; [reflexivity|]); (split; [reflexivity|]); apply parts_qm.
Qed.
Lemma push_sends t node ho data s : m_last (fst (push_queue t node ho data s)) = m_last s /\ forall w node' m h d, In (MSend w node' m) (snd (push_queue t node ho data s)) -> ~ delivers m h d.
Proof.
  unfold push_queue. destruct ho as [h|]; [|split; [reflexivity|intros ? ? ? ? ? [J|[]]; discriminate]]. cbv zeta. destruct (existsb _ _); [split; [reflexivity|intros ? ? ? ? ? [J|[]]; discriminate]|].
  rewrite queue_msg_ok. split; [reflexivity|]. intros w node' m h' d [J|[]] D. injection J as _ _ <-. unfold delivers in D. rewrite parts_qm in D. discriminate.
Qed.
Lemma message_sends t node m s : m_last (fst (on_message t node m s)) = (if called "Mailbox.WakeupNotification" m then number "queueHandle" m else m_last s) /\
  forall w node' r h d, In (MSend w node' r) (snd (on_message t node m s)) -> delivers r h d -> snd (on_message t node m s) = [MSend w node r] /\ node' = node /\ aim (m_last s) m = Some h.
Proof.
  assert (K : forall ho s0 l, ho = aim l m -> m_last s0 = m_last s0 -> forall w node' r h d, In (MSend w node' r) (snd (pop_queue t node ho s0)) -> delivers r h d -> snd (pop_queue t node ho s0) = [MSend w node r] /\ node' = node /\ aim l m = Some h).
  { intros ho s0 l A _ w node' r h d J D. destruct (pop_sends t node ho s0) as [_ [[e E]|(h0 & e & m0 & H & E & P)]]; rewrite E in J; destruct J as [J|[]]; [discriminate|]. injection J as <- <- <-.
    split; [exact E|]. split; [reflexivity|]. unfold delivers in D. rewrite P in D. injection D as -> _. congruence. }
  unfold on_message. change (is_type m_Mailbox_WakeupNotification m) with (called "Mailbox.WakeupNotification" m). change (is_type m_Mailbox_Queue m) with (called "Mailbox.Queue" m).
  change (int_val (getattr m "queueHandle")) with (number "queueHandle" m). change (int_val (getattr m "operation")) with (number "operation" m). cbv zeta.
  destruct (called "Mailbox.WakeupNotification" m) eqn:W.
  - split; [rewrite (proj1 (pop_sends _ _ _ _)); reflexivity|]. apply K; [|reflexivity]. unfold aim. rewrite W. reflexivity.
  - destruct (called "Mailbox.Queue" m) eqn:Q; [|split; [reflexivity|intros ? ? ? ? ? [J|[]]; discriminate]].
    destruct (number "operation" m) as [op|] eqn:O; [|split; [reflexivity|intros ? ? ? ? ? [J|[]]; discriminate]].
    assert (NO : forall x, m_last (fst (set_mtask t (MDone (Ok false)) s, [MRet t (Ok x)])) = m_last s /\ forall w node' r h d, In (MSend w node' r) (snd (set_mtask t (MDone (Ok false)) s, [MRet t (Ok x)])) -> delivers r h d ->
      snd (set_mtask t (MDone (Ok false)) s, [MRet t (Ok x)]) = [MSend w node r] /\ node' = node /\ aim (m_last s) m = Some h) by (intros x; split; [reflexivity|intros ? ? ? ? ? [J|[]]; discriminate]).
    destruct op as [|[p|[p|[p|p|]|]|]|p]; try apply NO.
    + destruct (push_sends t node (number "queueHandle" m) (bytes_attr (getattr m "mailboxEntry")) s) as [P1 P2]. split; [exact P1|]. intros w node' r h d J D. destruct (P2 _ _ _ _ _ J D).
    + split; [apply (proj1 (pop_sends _ _ _ _))|]. apply K; [|reflexivity]. unfold aim. rewrite W, Q, O. destruct (number "queueHandle" m) as [[|p|p]|]; reflexivity.
Qed.
Lemma sent_sends t r s s' os : sent t r s = Some (s', os) -> m_last s' = m_last s /\ (forall w node m, ~ In (MSend w node m) os) /\ forall node m, ~ In (MIn node m) os.
Proof.
  unfold sent. destruct (nth_error (m_tasks s) t) as [[it| |node h data|r0]|]; try discriminate.
  - destruct r as [b|e]; intros H; injection H as <- <-; (split; [|split; intros; intros [J|[]]; discriminate]); [destruct b; [unfold stop_beat; destruct (nth_error _ _)|]|]; reflexivity.
  - intros H; injection H as <- <-; (split; [reflexivity|split; intros; intros [J|[]]; discriminate]).
  - destruct r as [[]|e]; intros H; injection H as <- <-; (split; [reflexivity|split; intros; intros J; repeat (destruct J as [J|J]; [discriminate|]); destruct J]).
Qed.
Lemma last_snoc {A} (l : list A) x d : last (l ++ [x]) d = x.
Proof. induction l as [|y l IH]; [reflexivity|]. destruct l as [|z l]; [reflexivity|exact IH]. Qed.
Lemma wake_quiet tr os n : (forall node m, ~ In (MIn node m) os) -> last_wake (tr ++ mstamp n os) = last_wake tr.
Proof.
  intros H. unfold last_wake. rewrite flat_map_app. match goal with |- last (_ ++ ?x) _ = _ => assert (Z : x = []) end; [|rewrite Z, app_nil_r; reflexivity].
  induction os as [|o os IH]; [reflexivity|]. cbn [mstamp map flat_map snd]. unfold mstamp in IH. rewrite IH by (intros node m J; apply (H node m); right; exact J). rewrite app_nil_r. destruct o; try reflexivity. destruct (H node m). left. reflexivity.
Qed.
Lemma last_exec es s tr : mexec mbox0 es s tr -> m_last s = last_wake tr.
Proof.
  induction 1 as [|es s tr e s' os X IH ST]; [reflexivity|]. destruct e as [dt|node m|t r|b|b r]; cbn [mstep] in ST.
  - destruct (0 <=? dt); [|discriminate]. injection ST as <- <-. cbn. rewrite app_nil_r. exact IH.
  - destruct (on_message _ _ _ _) as [s1 o] eqn:E. injection ST as <- <-. pose proof (message_sends (length (m_tasks s)) node m (add_mtask (MDone (Err EUnmodelled)) s)) as [A _]. rewrite E in A. cbn [fst add_mtask m_last] in A. rewrite A.
    change (mstamp (m_now s) (MIn node m :: o)) with ([(m_now s, MIn node m)] ++ mstamp (m_now s) o). rewrite app_assoc, wake_quiet.
    + unfold last_wake. rewrite flat_map_app. cbn [flat_map snd app]. destruct (called _ m); [symmetry; apply last_snoc|]. rewrite !app_nil_r. exact IH.
    + intros node' m' J. clear - E J. assert (G : forall ho s0, ~ In (MIn node' m') (snd (pop_queue (length (m_tasks s)) node ho s0))).
      { intros ho s0 K. destruct (pop_sends (length (m_tasks s)) node ho s0) as [_ [[e E']|(h0 & e & m0 & H & E' & P)]]; rewrite E' in K; destruct K as [K|[]]; discriminate. }
      assert (G' : forall ho d s0, ~ In (MIn node' m') (snd (push_queue (length (m_tasks s)) node ho d s0))).
      { intros ho d s0 K. unfold push_queue in K. destruct ho; [|destruct K as [K|[]]; discriminate]. cbv zeta in K. destruct (existsb _ _); [destruct K as [K|[]]; discriminate|]. rewrite queue_msg_ok in K. destruct K as [K|[]]; discriminate. }
      replace o with (snd (on_message (length (m_tasks s)) node m (add_mtask (MDone (Err EUnmodelled)) s))) in J by (rewrite E; reflexivity). unfold on_message in J. cbv zeta in J.
      destruct (is_type _ m); [exact (G _ _ J)|]. destruct (is_type _ m); [|destruct J as [J|[]]; discriminate]. destruct (int_val (getattr m "operation")) as [[|[p|[p|[p|p|]|]|]|p]|]; try (destruct J as [J|[]]; discriminate); [exact (G' _ _ _ J)|exact (G _ _ J)].
  - apply sent_sends in ST as (-> & _ & Q). rewrite wake_quiet; [exact IH|exact Q].
  - destruct (nth_error (m_beats s) b) as [[node h data i []]|]; try discriminate. destruct (due <=? m_now s); [|discriminate]. rewrite queue_msg_ok in ST. injection ST as <- <-. rewrite wake_quiet; [exact IH|]. intros ? ? [J|[]]; discriminate.
  - destruct (nth_error (m_beats s) b) as [[node h data i []]|]; try discriminate. injection ST as <- <-. cbn. rewrite app_nil_r. exact IH.
Qed.
Lemma about_aim tr m : about tr m = aim (last_wake tr) m. Proof. reflexivity. Qed.
(** a delivery answers a message about its queue, and goes to the sender of that message *)
Lemma to_sender es s tr a n w node r b h d : mexec mbox0 es s tr -> tr = a ++ (n, MSend w node r) :: b -> delivers r h d -> (exists a0 m, a = a0 ++ [(n, MIn node m)] /\ about a0 m = Some h) /\ exists es1 s1, mexec mbox0 es1 s1 (a ++ [(n, MSend w node r)]).
Proof.
  intros X. revert a b. induction X as [|es s tr e s' os X IH ST]; intros a b E D; [destruct a; discriminate|].
  destruct (InterviewVisit.split_two _ _ _ _ _ E) as [[c Y]|(c & -> & E')]; [exact (IH _ _ Y D)|]. clear E IH.
  assert (J : In (MSend w node r) os /\ n = m_now s).
  { assert (K : In (n, MSend w node r) (mstamp (m_now s) os)) by (rewrite E'; apply in_or_app; right; left; reflexivity). unfold mstamp in K. apply in_map_iff in K as (o & O & K). injection O as <- ->. auto. }
  destruct J as [J ->]. destruct e as [dt|node0 m|t r0|b0|b0 r0]; cbn [mstep] in ST.
  - destruct (0 <=? dt); [|discriminate]. injection ST as <- <-. destruct J.
  - destruct (on_message _ _ _ _) as [s1 o] eqn:EM. injection ST as <- <-. destruct J as [J|J]; [discriminate|]. pose proof (message_sends (length (m_tasks s)) node0 m (add_mtask (MDone (Err EUnmodelled)) s)) as [_ A]. rewrite EM in A. cbn [snd add_mtask m_last] in A.
    destruct (A _ _ _ _ _ J D) as (-> & -> & H). cbn in E'. destruct c as [|x [|y c]]; cbn in E'.
    + discriminate.
    + injection E' as <- _. split.
      * exists tr, m. split; [reflexivity|]. rewrite about_aim, <- (last_exec _ _ _ X). exact H.
      * exists (es ++ [EvMessage node0 m]), s1. rewrite <- app_assoc. apply (MX_snoc mbox0 es s tr (EvMessage node0 m) s1 [MIn node0 m; MSend w node0 r] X). cbn [mstep]. rewrite EM. reflexivity.
    + injection E' as _ _ E'. destruct c; discriminate.
  - apply sent_sends in ST as (_ & Q & _). destruct (Q _ _ _ J).
  - destruct (nth_error (m_beats s) b0) as [[nd hh data i []]|]; try discriminate. destruct (due <=? m_now s); [|discriminate]. rewrite queue_msg_ok in ST. injection ST as <- <-. destruct J as [J|[]]. injection J as <- <- <-. unfold delivers in D. rewrite parts_qm in D. destruct (i mod 10 =? 0); discriminate D.
  - destruct (nth_error (m_beats s) b0) as [[nd hh data i []]|]; try discriminate. injection ST as <- <-. destruct J.
Qed.
Lemma some_of_count {A} (f : A -> bool) l : (0 < count f l)%nat -> exists x, In x l /\ f x = true.
Proof. unfold count. destruct (filter f l) as [|x k] eqn:E; [cbn; lia|]. intros _. exists x. apply filter_In. rewrite E. left. reflexivity. Qed.
Lemma eqb_same d : bytes_eqb d d = true. Proof. unfold bytes_eqb. destruct (list_eq_dec _ _ _); congruence. Qed.
Lemma push_about tr m h d : pushes m h d -> about tr m = Some h.
Proof.
  intros (e & P & _). unfold parts in P. unfold about, called, number. destruct m; try discriminate. match type of P with match ?k with _ => _ end = _ => destruct k as [c| | | | | |]; try discriminate end. destruct (String.eqb (s_name c) "Mailbox.Queue") eqn:Q; [|discriminate]. apply String.eqb_eq in Q. rewrite Q. cbn [String.eqb Ascii.eqb Bool.eqb].
  destruct (to_int (getattr _ "operation")) as [op|]; [|discriminate]. destruct (to_int (getattr _ "queueHandle")) as [h0|]; [|discriminate]. injection P as -> -> _. reflexivity.
Qed.
Lemma pushed_before es s tr a n w node r b h d : mexec mbox0 es s tr -> tr = a ++ (n, MSend w node r) :: b -> delivers r h d -> exists n' node' m', In (n', MIn node' m') a /\ pushes m' h d.
Proof.
  intros X E D. destruct (to_sender _ _ _ _ _ _ _ _ _ _ _ X E D) as [_ (es1 & s1 & X1)]. pose proof (delivered_once h d _ _ _ X1) as C.
  assert (P : (0 < count (is_push h d) (a ++ [(n, MSend w node r)]))%nat).
  { assert (Q : (0 < count (is_delivery h d) (a ++ [(n, MSend w node r)]))%nat); [|lia]. unfold count. rewrite filter_app, app_length. cbn [filter]. unfold is_delivery at 2. cbn [snd]. rewrite D. cbv iota. rewrite Z.eqb_refl, eqb_same. cbn. lia. }
  apply some_of_count in P as ([n' o] & J & F). apply in_app_or in J as [J|[J|[]]].
  - unfold is_push in F. cbn [snd] in F. destruct o as [node' m'| | |]; try discriminate. destruct (parts m') as [[[[| |] h'] e]|] eqn:P; try discriminate. apply andb_true_iff in F as [F1 F2]. apply Z.eqb_eq in F1. subst h'.
    exists n', node', m'. split; [exact J|]. exists e. split; [exact P|]. unfold bytes_eqb in F2. destruct (list_eq_dec _ _ _); [congruence|discriminate].
  - injection J as <- <-. discriminate F.
Qed.
Lemma returns own es s tr : mexec mbox0 es s tr -> polite own tr -> returned tr.
Proof.
  intros X P a n w node r b h d E D. destruct (to_sender _ _ _ _ _ _ _ _ _ _ _ X E D) as [(a0 & m & A & AB) _]. destruct (pushed_before _ _ _ _ _ _ _ _ _ _ _ X E D) as (n' & node' & m' & J & PU). exists n', m'. split; [|exact PU].
  assert (N : node = own h). { apply (P a0 n node m ((n, MSend w node r) :: b) h); [|exact AB]. rewrite E, A, <- app_assoc. reflexivity. }
  assert (N' : node' = own h). { apply in_split in J as (a1 & a2 & J). apply (P a1 n' node' m' (a2 ++ (n, MSend w node r) :: b) h); [|exact (push_about _ _ _ _ PU)]. rewrite E, J, <- app_assoc. reflexivity. }
  congruence.
Qed.
