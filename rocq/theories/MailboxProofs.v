(** Proofs about the mailbox (C58-C64, C75). *)
From Coq Require Import String ZArith List Bool Lia ZifyBool ZifyNat.
From Verif Require Import Py Schema Registry Codec Waiter ConnLemmas NodeProofs MailboxM SpecMailbox.
Import ListNotations.
Open Scope list_scope.
Open Scope string_scope.
Open Scope list_scope.
Open Scope Z_scope.

(** ** Messages *)
Definition qm (last : bool) (op h : Z) (e : option (list Z)) : val :=
  VObj (CMsg m_Mailbox_Queue) ([("last", VF (if last then 1 else 0)); ("operation", VU 3 op); ("queueHandle", VI false 1 h)] ++ match e with Some d => [("mailboxEntry", VBytes d)] | None => [] end).
Lemma queue_msg_ok last op h e : queue_msg last op (VInt h) e = Ok (qm last op h e).
Proof. destruct last, e; reflexivity. Qed.
Lemma parts_qm last op h e : parts (qm last op h e) = Some (op, h, e).
Proof. destruct e; reflexivity. Qed.
Lemma pushes_parts m h data : pushes m h data <-> exists e, parts m = Some (0, h, e) /\ data = match e with Some d => d | None => [] end.
Proof. reflexivity. Qed.

(** ** Queues *)
Lemma queue_set h q s h' : queue h' (set_queue h q s) = if h' =? h then q else queue h' s.
Proof. unfold queue, set_queue. cbn [m_queue]. rewrite dget_dset. destruct (h' =? h); reflexivity. Qed.
Lemma queue_eq s s' : m_queue s' = m_queue s -> forall h, queue h s' = queue h s.
Proof. intros E h. unfold queue. rewrite E. reflexivity. Qed.
Lemma pop_last_spec q : match pop_last q with None => q = [] | Some (it, rest) => q = rest ++ [it] end.
Proof.
  unfold pop_last. destruct (rev q) as [|x r] eqn:E.
  - rewrite <- (rev_involutive q), E. reflexivity.
  - rewrite <- (rev_involutive q), E. reflexivity.
Qed.
Lemma upd_end {A} (l : list A) x y : upd (length l) x (l ++ [y]) = l ++ [x].
Proof. induction l; cbn; [reflexivity|]. f_equal. assumption. Qed.

(** ** What a step does *)
Definition same_queues (s s' : mbox) : Prop := forall h, queue h s' = queue h s.
Definition is_nil {A} (l : list A) : bool := match l with [] => true | _ => false end.
Inductive mcase (s : mbox) : mevent -> mbox -> list mobs -> Prop :=
| K_tick dt s' : 0 <= dt -> m_now s' = m_now s + dt -> m_tasks s' = m_tasks s -> m_beats s' = m_beats s -> same_queues s s' -> mcase s (EvTick dt) s' []
| K_none node m r s' : m_now s' = m_now s -> m_tasks s' = m_tasks s ++ [MDone r] -> m_beats s' = m_beats s -> same_queues s s' ->
    mcase s (EvMessage node m) s' [MIn node m; MRet (length (m_tasks s)) r]
| K_empty node m h s' : queue h s = [] -> m_now s' = m_now s -> m_tasks s' = m_tasks s ++ [MEmpty] -> m_beats s' = m_beats s -> same_queues s s' ->
    mcase s (EvMessage node m) s' [MIn node m; MSend (ByTask (length (m_tasks s))) node (qm true 1 h None)]
| K_deliver node m h rest it s' : queue h s = rest ++ [it] -> m_now s' = m_now s -> m_tasks s' = m_tasks s ++ [MPop it] -> m_beats s' = m_beats s ->
    (forall h', queue h' s' = if h' =? h then rest else queue h' s) ->
    mcase s (EvMessage node m) s' [MIn node m; MSend (ByTask (length (m_tasks s))) node (qm (is_nil rest) 1 h (Some (it_data it)))]
| K_push node m h d s' : pushes m h d -> (forall it, In it (queue h s) -> checksum (it_data it) <> checksum d) ->
    m_now s' = m_now s -> m_tasks s' = m_tasks s ++ [MPush node h d] -> m_beats s' = m_beats s -> same_queues s s' ->
    mcase s (EvMessage node m) s' [MIn node m; MSend (ByTask (length (m_tasks s))) node (qm false 2 h (Some d))]
| K_ended t r r' p s' : nth_error (m_tasks s) t = Some p -> (p = MEmpty \/ (exists it, p = MPop it /\ r <> Ok true) \/ (exists node h d, p = MPush node h d /\ r <> Ok true)) ->
    m_now s' = m_now s -> m_tasks s' = upd t (MDone r') (m_tasks s) -> m_beats s' = m_beats s -> same_queues s s' ->
    mcase s (EvSent t r) s' [MRet t r']
| K_popped t it s' : nth_error (m_tasks s) t = Some (MPop it) -> m_now s' = m_now s -> m_tasks s' = upd t (MDone (Ok true)) (m_tasks s) ->
    m_beats s' = match nth_error (m_beats s) (it_beat it) with Some x => upd (it_beat it) (mkBeat (bt_node x) (bt_handle x) (bt_data x) (bt_i x) BOver) (m_beats s) | None => m_beats s end ->
    same_queues s s' -> mcase s (EvSent t (Ok true)) s' [MRet t (Ok true)]
| K_stored t node h d s' : nth_error (m_tasks s) t = Some (MPush node h d) -> m_now s' = m_now s -> m_tasks s' = upd t (MDone (Ok true)) (m_tasks s) ->
    m_beats s' = m_beats s ++ [mkBeat node h d 1 (BSleep (m_now s + 60000))] ->
    (forall h', queue h' s' = if h' =? h then queue h s ++ [mkItem node d (length (m_beats s))] else queue h' s) ->
    mcase s (EvSent t (Ok true)) s' [MStored t (length (m_beats s)); MRet t (Ok true)]
| K_beat b node h d i due s' : nth_error (m_beats s) b = Some (mkBeat node h d i (BSleep due)) -> due <= m_now s -> m_now s' = m_now s -> m_tasks s' = m_tasks s ->
    m_beats s' = upd b (mkBeat node h d i BSending) (m_beats s) -> same_queues s s' ->
    mcase s (EvBeat b) s' [MSend (ByBeat b) node (qm false (if i mod 10 =? 0 then 3 else 2) h (Some d))]
| K_beat_sent b node h d i r s' : nth_error (m_beats s) b = Some (mkBeat node h d i BSending) -> m_now s' = m_now s -> m_tasks s' = m_tasks s ->
    m_beats s' = upd b (mkBeat node h d (i + 1) (match r with Ok _ => BSleep (m_now s + 60000) | Err _ => BOver end)) (m_beats s) -> same_queues s s' ->
    mcase s (EvBeatSent b r) s' [].

Lemma pop_case s node m ho s0 : m_now s0 = m_now s -> m_tasks s0 = m_tasks s ++ [MDone (Err EUnmodelled)] -> m_beats s0 = m_beats s -> m_queue s0 = m_queue s ->
  mcase s (EvMessage node m) (fst (pop_queue (length (m_tasks s)) node ho s0)) (MIn node m :: snd (pop_queue (length (m_tasks s)) node ho s0)).
Proof.
  intros N T B Q. assert (U : forall p, upd (length (m_tasks s)) p (m_tasks s0) = m_tasks s ++ [p]) by (intros p; rewrite T; apply upd_end).
  unfold pop_queue. destruct ho as [h|]; [|apply K_none; try assumption; [cbn; apply U|]; intros h; apply (queue_eq s s0 Q)].
  rewrite (queue_eq s s0 Q h). pose proof (pop_last_spec (queue h s)) as P. destruct (pop_last (queue h s)) as [[it rest]|].
  - cbv zeta. rewrite queue_msg_ok. cbn [fst snd]. change (match rest with [] => true | _ => false end) with (is_nil rest).
    apply K_deliver; try assumption; [cbn; apply U|]. intros h'. unfold set_mtask, queue. cbn [m_queue]. change (match dget Z.eqb h' (m_queue (set_queue h rest s0)) with Some q => q | None => [] end) with (queue h' (set_queue h rest s0)).
    rewrite queue_set, (queue_eq s s0 Q h'). reflexivity.
  - rewrite queue_msg_ok. cbn [fst snd]. apply K_empty; try assumption; [cbn; apply U|]. intros h'. apply (queue_eq s s0 Q).
Qed.
Lemma push_case s node m ho data s0 : m_now s0 = m_now s -> m_tasks s0 = m_tasks s ++ [MDone (Err EUnmodelled)] -> m_beats s0 = m_beats s -> m_queue s0 = m_queue s ->
  (forall h, ho = Some h -> pushes m h data) ->
  mcase s (EvMessage node m) (fst (push_queue (length (m_tasks s)) node ho data s0)) (MIn node m :: snd (push_queue (length (m_tasks s)) node ho data s0)).
Proof.
  intros N T B Q P. assert (U : forall p, upd (length (m_tasks s)) p (m_tasks s0) = m_tasks s ++ [p]) by (intros p; rewrite T; apply upd_end).
  unfold push_queue. destruct ho as [h|]; [|apply K_none; try assumption; [cbn; apply U|]; intros h; apply (queue_eq s s0 Q)].
  assert (SQ : same_queues s (set_queue h (queue h s0) s0)).
  { intros h'. rewrite queue_set. destruct (h' =? h) eqn:E; [replace h' with h by lia|]; apply (queue_eq s s0 Q). }
  cbv zeta. destruct (existsb _ _) eqn:X; cbn [fst snd].
  - apply K_none; try assumption. cbn. apply U.
  - rewrite queue_msg_ok. cbn [fst snd]. apply K_push with (d := data); try assumption; [apply P; reflexivity| |cbn; apply U].
    intros it J E. rewrite <- (queue_eq s s0 Q h) in J. assert (existsb (fun it => checksum (it_data it) =? checksum data) (queue h s0) = true) as Y; [|congruence].
    apply existsb_exists. exists it. split; [exact J|lia].
Qed.
Lemma int_val_ok v z : int_val v = Some z <-> to_int v = Ok z.
Proof. unfold int_val. destruct (to_int v); split; congruence. Qed.
Lemma parts_of m op h : is_type m_Mailbox_Queue m = true -> int_val (getattr m "operation") = Some op -> int_val (getattr m "queueHandle") = Some h ->
  exists e, parts m = Some (op, h, e) /\ bytes_attr (getattr m "mailboxEntry") = match e with Some d => d | None => [] end.
Proof.
  intros T O H. destruct m; try discriminate T. match goal with |- context [VObj ?x ?y] => rename x into k, y into d end. destruct k as [c| | | | | |]; try discriminate T. apply int_val_ok in O, H. unfold parts. cbn [is_type] in T.
  change (s_name m_Mailbox_Queue) with "Mailbox.Queue" in T. rewrite T, O, H. eexists. split; [reflexivity|]. cbn [getattr].
  destruct (aget "mailboxEntry" d) as [v|]; [destruct v; reflexivity|]. destruct (find_attr _ _) as [a|]; [destruct (a_ty a); reflexivity|reflexivity].
Qed.
Lemma step_case s e s' os : mstep s e = Some (s', os) -> mcase s e s' os.
Proof.
  destruct e as [dt|node m|t r|b|b r]; cbn [mstep]; intros E.
  - destruct (0 <=? dt) eqn:D; [|discriminate]. injection E as <- <-. apply K_tick; auto; [lia|]. intros h. reflexivity.
  - unfold on_message in E. set (s0 := add_mtask _ s) in E.
    destruct (is_type m_Mailbox_WakeupNotification m).
    { pose proof (pop_case s node m (int_val (getattr m "queueHandle")) (mkM (m_now s0) (int_val (getattr m "queueHandle")) (m_queue s0) (m_tasks s0) (m_beats s0)) eq_refl eq_refl eq_refl eq_refl) as P.
      destruct (pop_queue _ _ _ _) as [s1 o1]. injection E as <- <-. exact P. }
    assert (NO : forall r, mcase s (EvMessage node m) (set_mtask (length (m_tasks s)) (MDone r) s0) [MIn node m; MRet (length (m_tasks s)) r]).
    { intros r. apply K_none; auto; [cbn; apply upd_end|]. intros h. reflexivity. }
    destruct (is_type m_Mailbox_Queue m) eqn:T; [|injection E as <- <-; apply NO].
    destruct (int_val (getattr m "operation")) as [[|p|p]|] eqn:O; try (injection E as <- <-; apply NO).
    { pose proof (push_case s node m (int_val (getattr m "queueHandle")) (bytes_attr (getattr m "mailboxEntry")) s0 eq_refl eq_refl eq_refl eq_refl) as P.
      destruct (push_queue _ _ _ _ _) as [s1 o1]. injection E as <- <-. apply P.
      intros h H. destruct (parts_of m 0 h T O H) as (e & X & Y). exists e. auto. }
    do 3 (destruct p; try (injection E as <- <-; apply NO)).
    match type of E with (let (_, _) := pop_queue _ _ ?ho _ in _) = _ => pose proof (pop_case s node m ho s0 eq_refl eq_refl eq_refl eq_refl) as P end.
    destruct (pop_queue _ _ _ _) as [s1 o1]. injection E as <- <-. exact P.
  - unfold sent in E. destruct (nth_error (m_tasks s) t) as [[it| |node h d|r0]|] eqn:H; try discriminate.
    + destruct r as [[]|e].
      * injection E as <- <-. unfold stop_beat. destruct (nth_error (m_beats s) (it_beat it)) eqn:B; eapply K_popped; try exact H; try reflexivity; cbn; rewrite ?B; try reflexivity; intros h; reflexivity.
      * injection E as <- <-. eapply K_ended; try exact H; try reflexivity; [right; left; exists it; split; [reflexivity|discriminate]|intros h; reflexivity].
      * injection E as <- <-. eapply K_ended; try exact H; try reflexivity; [right; left; exists it; split; [reflexivity|discriminate]|intros h; reflexivity].
    + injection E as <- <-. eapply K_ended; try exact H; try reflexivity; [auto|intros h; reflexivity].
    + destruct r as [[]|e].
      * injection E as <- <-. eapply K_stored; try exact H; try reflexivity. intros h'.
        match goal with |- queue h' (set_mtask _ _ ?x) = _ => change (queue h' x = if h' =? h then queue h s ++ [mkItem node d (length (m_beats s))] else queue h' s) end.
        rewrite queue_set. reflexivity.
      * injection E as <- <-. eapply K_ended; try exact H; try reflexivity; [right; right; do 3 eexists; split; [reflexivity|discriminate]|intros h'; reflexivity].
      * injection E as <- <-. eapply K_ended; try exact H; try reflexivity; [right; right; do 3 eexists; split; [reflexivity|discriminate]|intros h'; reflexivity].
  - destruct (nth_error (m_beats s) b) as [[node h d i [due| |]]|] eqn:H; try discriminate. destruct (due <=? m_now s) eqn:D; [|discriminate].
    rewrite queue_msg_ok in E. injection E as <- <-. eapply K_beat; try exact H; try reflexivity; [lia|intros h'; reflexivity].
  - destruct (nth_error (m_beats s) b) as [[node h d i [due| |]]|] eqn:H; try discriminate.
    injection E as <- <-. eapply K_beat_sent; try exact H; try reflexivity. intros h'. reflexivity.
Qed.

(** ** C61: counting *)
Lemma bytes_eqb_refl d : bytes_eqb d d = true.
Proof. unfold bytes_eqb. destruct (list_eq_dec _ _ _); congruence. Qed.
Lemma bytes_eqb_eq a b : bytes_eqb a b = true <-> a = b.
Proof. unfold bytes_eqb. destruct (list_eq_dec _ _ _); split; congruence. Qed.
Lemma count_app {A} f (l k : list A) : count f (l ++ k) = (count f l + count f k)%nat.
Proof. unfold count. rewrite filter_app, app_length. reflexivity. Qed.
Lemma count_upd {A} (f : A -> bool) l i x y : nth_error l i = Some y -> (count f (upd i x l) + (if f y then 1 else 0) = count f l + (if f x then 1 else 0))%nat.
Proof.
  revert i. induction l as [|z l IH]; intros [|i] H; try discriminate; cbn in H |- *.
  - injection H as ->. unfold count. cbn. destruct (f x), (f y); cbn; lia.
  - specialize (IH i H). unfold count in *. cbn. destruct (f z); cbn; lia.
Qed.
Definition waits_for (h : Z) (d : list Z) (p : mpc) : bool := match p with MPush _ h' d' => (h' =? h) && bytes_eqb d' d | _ => false end.
Lemma is_push_true n node m h d : pushes m h d -> is_push h d (n, MIn node m) = true.
Proof. intros (e & P & ->). unfold is_push. cbn [snd]. rewrite P, Z.eqb_refl. cbn. apply bytes_eqb_refl. Qed.
Lemma is_push_inv n node m h d : is_push h d (n, MIn node m) = true -> pushes m h d.
Proof.
  unfold is_push. cbn [snd]. destruct (parts m) as [[[[| |] h'] e]|] eqn:P; try discriminate. intros H. apply andb_true_iff in H as [H1 H2].
  apply bytes_eqb_eq in H2. assert (h' = h) as -> by lia. exists e. auto.
Qed.
Lemma pushes_fun m h d h' d' : pushes m h d -> pushes m h' d' -> h = h' /\ d = d'.
Proof. intros (e & P & ->) (e' & P' & ->). rewrite P in P'. injection P' as <- <-. auto. Qed.
Lemma counted h d es s tr : mexec mbox0 es s tr ->
  (count (is_delivery h d) tr + count (holds d) (queue h s) + count (waits_for h d) (m_tasks s) <= count (is_push h d) tr)%nat.
Proof.
  induction 1 as [|es s tr e s' os X IH S]; [reflexivity|]. apply step_case in S. rewrite !count_app.
  assert (C : forall l o n, count (is_delivery h d) (mstamp n (o :: l)) = ((if is_delivery h d (n, o) then 1 else 0) + count (is_delivery h d) (mstamp n l))%nat).
  { intros l o n. unfold count, mstamp. cbn. destruct (is_delivery h d (n, o)); reflexivity. }
  assert (C' : forall l o n, count (is_push h d) (mstamp n (o :: l)) = ((if is_push h d (n, o) then 1 else 0) + count (is_push h d) (mstamp n l))%nat).
  { intros l o n. unfold count, mstamp. cbn. destruct (is_push h d (n, o)); reflexivity. }
  assert (DQ : forall n w node l op h' e, is_delivery h d (n, MSend w node (qm l op h' e)) = match op, e with 1, Some d' => (h' =? h) && bytes_eqb d' d | _, _ => false end).
  { intros. unfold is_delivery. cbn [snd]. rewrite parts_qm. reflexivity. }
  destruct S as [dt s' D N T B Q|node m r s' N T B Q|node m h0 s' E N T B Q|node m h0 rest it s' E N T B Q|node m h0 d0 s' P NC N T B Q|t r r' p s' H K N T B Q|t it s' H N T B Q
    |t node h0 d0 s' H N T B Q|b node h0 d0 i due s' H D N T B Q|b node h0 d0 i r s' H N T B Q]; rewrite ?C, ?C', ?DQ; cbn [mstamp map]; change (count (is_delivery h d) []) with 0%nat; change (count (is_push h d) []) with 0%nat.
  - rewrite Q, T. lia.
  - rewrite Q, T, count_app. cbn [is_delivery is_push snd]. change (count (waits_for h d) [MDone r]) with 0%nat. destruct (is_push h d (m_now s, MIn node m)); cbn; lia.
  - rewrite Q, T, count_app. change (count (waits_for h d) [MEmpty]) with 0%nat. destruct (is_push h d (m_now s, MIn node m)); cbn; lia.
  - rewrite Q, T, count_app. change (count (waits_for h d) [MPop it]) with 0%nat. change (is_delivery h d (m_now s, MIn node m)) with false. cbn [is_push snd].
    destruct (h =? h0) eqn:HH.
    + assert (h = h0) as -> by lia. rewrite E, count_app in IH. rewrite Z.eqb_refl. cbn [andb]. unfold holds at 2 in IH. change (count (fun it0 => bytes_eqb (it_data it0) d) [it]) with (count (holds d) [it]) in IH.
      unfold count at 2 3 in IH. cbn [filter] in IH. fold (holds d it) in IH. unfold holds in *. cbn [filter] in IH. destruct (bytes_eqb (it_data it) d); cbn [length] in IH; unfold count in *; destruct (is_push h0 d (m_now s, MIn node m)); cbn; lia.
    + replace (h0 =? h) with false by lia. cbn [andb]. destruct (is_push h d (m_now s, MIn node m)); cbn; lia.
  - rewrite Q, T, count_app. cbn [is_delivery snd]. unfold count at 4. cbn [filter waits_for].
    destruct ((h0 =? h) && bytes_eqb d0 d) eqn:HH.
    + apply andb_true_iff in HH as [H1 H2]. apply bytes_eqb_eq in H2 as ->. assert (h0 = h) as -> by lia. rewrite (is_push_true _ _ _ _ _ P). cbn. lia.
    + cbn. lia.
  - rewrite Q, T. cbn [is_delivery is_push snd]. pose proof (count_upd (waits_for h d) _ _ (MDone r') _ H). cbn [waits_for] in *. lia.
  - rewrite Q, T. cbn [is_delivery is_push snd]. pose proof (count_upd (waits_for h d) _ _ (MDone (Ok true)) _ H) as U. cbn [waits_for] in U. lia.
  - rewrite Q, T. cbn [is_delivery is_push snd]. pose proof (count_upd (waits_for h d) _ _ (MDone (Ok true)) _ H) as U. cbn [waits_for] in U.
    destruct (h =? h0) eqn:HH.
    + assert (h = h0) as -> by lia. rewrite count_app. rewrite Z.eqb_refl in U. cbn [andb] in U. unfold count at 3. cbn [filter holds it_data]. unfold holds in *. cbn [it_data] in *. destruct (bytes_eqb d0 d); cbn [length]; lia.
    + replace (h0 =? h) with false in U by lia. cbn [andb] in U. lia.
  - rewrite Q, T. cbn [is_push snd]. destruct (i mod 10 =? 0); lia.
  - rewrite Q, T. lia.
Qed.
Lemma counted_stored h d es s tr : mexec mbox0 es s tr ->
  (count (is_delivery h d) tr + count (holds d) (queue h s) = count (is_for h d) (m_beats s))%nat.
Proof.
  induction 1 as [|es s tr e s' os X IH S]; [reflexivity|]. apply step_case in S. rewrite !count_app.
  assert (C : forall l o n, count (is_delivery h d) (mstamp n (o :: l)) = ((if is_delivery h d (n, o) then 1 else 0) + count (is_delivery h d) (mstamp n l))%nat).
  { intros l o n. unfold count, mstamp. cbn. destruct (is_delivery h d (n, o)); reflexivity. }
  assert (DQ : forall n w node l op h' e, is_delivery h d (n, MSend w node (qm l op h' e)) = match op, e with 1, Some d' => (h' =? h) && bytes_eqb d' d | _, _ => false end).
  { intros. unfold is_delivery. cbn [snd]. rewrite parts_qm. reflexivity. }
  destruct S as [dt s' D N T B Q|node m r s' N T B Q|node m h0 s' E N T B Q|node m h0 rest it s' E N T B Q|node m h0 d0 s' P NC N T B Q|t r r' p s' H K N T B Q|t it s' H N T B Q
    |t node h0 d0 s' H N T B Q|b node h0 d0 i due s' H D N T B Q|b node h0 d0 i r s' H N T B Q]; rewrite ?C, ?DQ; cbn [mstamp map]; change (count (is_delivery h d) []) with 0%nat; rewrite ?Nat.add_0_r.
  - rewrite Q, B. lia.
  - rewrite Q, B. cbn [is_delivery snd]. lia.
  - rewrite Q, B. cbn [is_delivery snd]. lia.
  - rewrite Q, B. change (is_delivery h d (m_now s, MIn node m)) with false.
    destruct (h =? h0) eqn:HH.
    + assert (h = h0) as -> by lia. rewrite E, count_app in IH. rewrite Z.eqb_refl. cbn [andb].
      unfold count at 3 in IH. cbn [filter] in IH. unfold holds in *. destruct (bytes_eqb (it_data it) d); cbn [length] in IH; unfold count in *; lia.
    + replace (h0 =? h) with false by lia. cbn [andb]. lia.
  - rewrite Q, B. cbn [is_delivery snd]. lia.
  - rewrite Q, B. cbn [is_delivery snd]. lia.
  - rewrite Q, B. cbn [is_delivery snd]. destruct (nth_error (m_beats s) (it_beat it)) as [x|] eqn:BX; [|lia].
    pose proof (count_upd (is_for h d) _ _ (mkBeat (bt_node x) (bt_handle x) (bt_data x) (bt_i x) BOver) _ BX) as U. unfold is_for in *. cbn [bt_handle bt_data] in *. lia.
  - rewrite Q, B, count_app. cbn [is_delivery snd]. change (count (is_for h d) [mkBeat node h0 d0 1 (BSleep (m_now s + 60000))]) with (length (if (h0 =? h) && bytes_eqb d0 d then [mkBeat node h0 d0 1 (BSleep (m_now s + 60000))] else [])).
    destruct (h =? h0) eqn:HH.
    + assert (h = h0) as -> by lia. rewrite count_app, Z.eqb_refl. cbn [andb]. change (count (holds d) [mkItem node d0 (length (m_beats s))]) with (length (if bytes_eqb d0 d then [mkItem node d0 (length (m_beats s))] else [])).
      destruct (bytes_eqb d0 d); cbn [length]; lia.
    + replace (h0 =? h) with false by lia. cbn [andb length]. lia.
  - rewrite Q, B. pose proof (count_upd (is_for h d) _ _ (mkBeat node h0 d0 i BSending) _ H) as U. unfold is_for in *. cbn [bt_handle bt_data] in *. destruct (i mod 10 =? 0); lia.
  - rewrite Q, B. pose proof (count_upd (is_for h d) _ _ (mkBeat node h0 d0 (i + 1) (match r with Ok _ => BSleep (m_now s + 60000) | Err _ => BOver end)) _ H) as U. unfold is_for in *. cbn [bt_handle bt_data] in *. lia.
Qed.
Lemma delivered_once h d es s tr : mexec mbox0 es s tr -> (count (is_delivery h d) tr + count (holds d) (queue h s) <= count (is_push h d) tr)%nat.
Proof. intros X. pose proof (counted h d _ _ _ X). lia. Qed.

(** ** C58, C59 *)
Lemma nodup_app_l {A} (l k : list A) : NoDup (l ++ k) -> NoDup l.
Proof. induction l as [|x l IH]; cbn; intros N; [constructor|]. inversion N; subst. constructor; [|auto]. intros J. apply H1. apply in_or_app. auto. Qed.
Definition sums (h : Z) (s : mbox) : list Z := map (fun it => checksum (it_data it)) (queue h s).
Definition fresh_pushes (s : mbox) : Prop :=
  (forall h, NoDup (sums h s)) /\
  (forall h t node d, nth_error (m_tasks s) t = Some (MPush node h d) -> ~ In (checksum d) (sums h s)) /\
  (forall h t node d t' node' d', nth_error (m_tasks s) t = Some (MPush node h d) -> nth_error (m_tasks s) t' = Some (MPush node' h d') -> t = t').
Lemma sums_same s s' : same_queues s s' -> forall h, sums h s' = sums h s.
Proof. intros Q h. unfold sums. rewrite Q. reflexivity. Qed.
Lemma not_pushing p : (forall node h d, p <> MPush node h d) -> forall l t node h d, nth_error (l ++ [p]) t = Some (MPush node h d) -> nth_error l t = Some (MPush node h d).
Proof. intros N l t node h d. rewrite nth_snoc. destruct (Nat.eqb t (length l)); [intros [= E]; destruct (N _ _ _ E)|auto]. Qed.
Lemma upd_pushing l t0 r t node h d : nth_error (upd t0 (MDone r) l) t = Some (MPush node h d) -> nth_error l t = Some (MPush node h d) /\ t <> t0.
Proof. rewrite nth_upd. destruct (Nat.eqb_spec t0 t) as [->|N]; [destruct (nth_error l t); discriminate|auto]. Qed.
Lemma serial_fresh es s tr : serial es s tr -> fresh_pushes s.
Proof.
  induction 1 as [|es s tr e s' os X IH NP S]; [split; [|split]; [intros h; constructor|intros h [|t] ? ?; discriminate|intros h [|t] ? ? ? ? ?; discriminate]|]. destruct IH as (I1 & I2 & I3).
  apply step_case in S.
  assert (K : forall p, (forall node h d, p <> MPush node h d) -> m_tasks s' = m_tasks s ++ [p] -> same_queues s s' -> fresh_pushes s').
  { intros p NE T Q. split; [|split].
    - intros h. rewrite (sums_same _ _ Q). apply I1.
    - intros h t node d H. rewrite (sums_same _ _ Q). rewrite T in H. apply (not_pushing p NE) in H. eauto.
    - intros h t node d t' node' d' H H'. rewrite T in H, H'. apply (not_pushing p NE) in H, H'. eauto. }
  assert (K' : forall t0 r, m_tasks s' = upd t0 (MDone r) (m_tasks s) -> same_queues s s' -> fresh_pushes s').
  { intros t0 r T Q. split; [|split].
    - intros h. rewrite (sums_same _ _ Q). apply I1.
    - intros h t node d H. rewrite (sums_same _ _ Q). rewrite T in H. apply upd_pushing in H as [H _]. eauto.
    - intros h t node d t' node' d' H H'. rewrite T in H, H'. apply upd_pushing in H as [H _]. apply upd_pushing in H' as [H' _]. eauto. }
  assert (K0 : m_tasks s' = m_tasks s -> same_queues s s' -> fresh_pushes s').
  { intros T Q. split; [|split]; [intros h|intros h t node d H|intros h t node d t' node' d' H H']; rewrite ?(sums_same _ _ Q); rewrite ?T in *; eauto. }
  destruct S as [dt s' D N T B Q|node m r s' N T B Q|node m h0 s' E N T B Q|node m h0 rest it s' E N T B Q|node m h0 d0 s' P NC N T B Q|t r r' p s' H K1 N T B Q|t it s' H N T B Q
    |t node h0 d0 s' H N T B Q|b node h0 d0 i due s' H D N T B Q|b node h0 d0 i r s' H N T B Q]; eauto.
  - apply (K (MDone r)); auto. discriminate.
  - apply (K MEmpty); auto. discriminate.
  - split; [|split].
    + intros h. unfold sums. rewrite Q. destruct (h =? h0); [|apply I1]. specialize (I1 h0). unfold sums in I1. rewrite E, map_app in I1. apply nodup_app_l in I1. exact I1.
    + intros h t node' d H. rewrite T in H. apply not_pushing in H; [|discriminate]. unfold sums. rewrite Q. destruct (h =? h0) eqn:HH; [|apply (I2 _ _ _ _ H)].
      assert (h = h0) as -> by lia. intros J. apply (I2 _ _ _ _ H). unfold sums. rewrite E, map_app. apply in_or_app. auto.
    + intros h t node' d t' node'' d' H H'. rewrite T in H, H'. apply not_pushing in H; [|discriminate]. apply not_pushing in H'; [|discriminate]. eauto.
  - specialize (NP _ _ _ _ eq_refl P). split; [|split].
    + intros h. rewrite (sums_same _ _ Q). apply I1.
    + intros h t node' d H. rewrite (sums_same _ _ Q). rewrite T, nth_snoc in H. destruct (Nat.eqb t (length (m_tasks s))); [|eauto].
      injection H as -> -> ->. intros J. apply in_map_iff in J as (it & EQ & J). exact (NC it J EQ).
    + intros h t node' d t' node'' d' H H'. rewrite T, nth_snoc in H, H'.
      destruct (Nat.eqb_spec t (length (m_tasks s))) as [->|], (Nat.eqb_spec t' (length (m_tasks s))) as [->|]; auto.
      * injection H as -> -> ->. destruct NP. exists t', node'', d'. exact H'.
      * injection H' as -> -> ->. destruct NP. exists t, node', d. exact H.
      * eauto.
  - split; [|split].
    + intros h. unfold sums. rewrite Q. destruct (h =? h0) eqn:HH; [|apply I1]. rewrite map_app. cbn [map it_data].
      pose proof (I2 _ _ _ _ H) as F. specialize (I1 h0). unfold sums in I1, F.
      apply (NoDup_Add (a := checksum d0) (l := map (fun it => checksum (it_data it)) (queue h0 s))); [|split; assumption].
      pose proof (Add_app (checksum d0) (map (fun it => checksum (it_data it)) (queue h0 s)) []) as AA. rewrite app_nil_r in AA. exact AA.
    + intros h t' node' d H'. rewrite T in H'. apply upd_pushing in H' as [H' NE]. unfold sums. rewrite Q. destruct (h =? h0) eqn:HH; [|apply (I2 _ _ _ _ H')].
      assert (h = h0) as -> by lia. destruct NE. eauto.
    + intros h t1 n1 d1 t2 n2 d2 H1 H2. rewrite T in H1, H2. apply upd_pushing in H1 as [H1 _]. apply upd_pushing in H2 as [H2 _]. eauto.
Qed.
Lemma serial_once es s tr h : serial es s tr -> NoDup (map it_data (queue h s)).
Proof.
  intros X. apply (NoDup_map_inv checksum). rewrite map_map. apply (proj1 (serial_fresh _ _ _ X)).
Qed.
Lemma serial_exec es s tr : serial es s tr -> mexec mbox0 es s tr.
Proof. induction 1; econstructor; eauto. Qed.

(** each stored message was announced once *)
Definition notice (x : beat) : Z * val := (bt_node x, qm false 2 (bt_handle x) (Some (bt_data x))).
Definition stored_by (t : nat) (tr : list (Z * mobs)) : list nat := flat_map (fun x => match snd x with MStored t' b => if Nat.eqb t' t then [b] else [] | _ => [] end) tr.
Definition announced (s : mbox) (tr : list (Z * mobs)) : Prop :=
  forall t, match nth_error (m_tasks s) t with
            | None => sent_by t tr = [] /\ stored_by t tr = []
            | Some (MPush node h d) => sent_by t tr = [(node, qm false 2 h (Some d))] /\ stored_by t tr = []
            | Some (MDone _) => stored_by t tr = [] \/ exists b x, stored_by t tr = [b] /\ nth_error (m_beats s) b = Some x /\ sent_by t tr = [notice x]
            | Some _ => stored_by t tr = []
            end.
Lemma sent_by_app t l k : sent_by t (l ++ k) = sent_by t l ++ sent_by t k.
Proof. apply flat_map_app. Qed.
Lemma stored_by_app t l k : stored_by t (l ++ k) = stored_by t l ++ stored_by t k.
Proof. apply flat_map_app. Qed.
(** the message of a heartbeat task never changes *)
Definition same_item (x y : beat) : Prop := bt_node y = bt_node x /\ bt_handle y = bt_handle x /\ bt_data y = bt_data x.
Lemma same_notice x y : same_item x y -> notice y = notice x.
Proof. intros (E1 & E2 & E3). unfold notice. congruence. Qed.
Lemma beats_keep s e s' os : mcase s e s' os -> forall b x, nth_error (m_beats s) b = Some x -> exists y, nth_error (m_beats s') b = Some y /\ same_item x y.
Proof.
  intros C b x H. assert (R : same_item x x) by (repeat split).
  destruct C as [dt s' D N T B Q|node m r s' N T B Q|node m h0 s' E N T B Q|node m h0 rest it s' E N T B Q|node m h0 d0 s' P NC N T B Q|t r r' p s' H0 K1 N T B Q|t it s' H0 N T B Q
    |t node h0 d0 s' H0 N T B Q|b0 node h0 d0 i due s' H0 D N T B Q|b0 node h0 d0 i r s' H0 N T B Q]; rewrite B; eauto.
  - destruct (nth_error (m_beats s) (it_beat it)) as [y|] eqn:EY; [|eauto]. rewrite nth_upd. destruct (Nat.eqb_spec (it_beat it) b) as [EB|]; [|eauto].
    rewrite EY. assert (x = y) as -> by congruence. eexists. split; [reflexivity|]. repeat split.
  - exists x. rewrite nth_error_app1 by (apply nth_lt in H; exact H). auto.
  - rewrite nth_upd. destruct (Nat.eqb_spec b0 b) as [->|]; [|eauto]. rewrite H0. assert (x = mkBeat node h0 d0 i (BSleep due)) as -> by congruence. eexists. split; [reflexivity|]. repeat split.
  - rewrite nth_upd. destruct (Nat.eqb_spec b0 b) as [->|]; [|eauto]. rewrite H0. assert (x = mkBeat node h0 d0 i BSending) as -> by congruence. eexists. split; [reflexivity|]. repeat split.
Qed.
Lemma announced_exec es s tr : mexec mbox0 es s tr -> announced s tr.
Proof.
  induction 1 as [|es s tr e s' os X IH S]; [intros [|t]; split; reflexivity|]. apply step_case in S. pose proof (beats_keep _ _ _ _ S) as BK.
  intros t0. specialize (IH t0). rewrite sent_by_app, stored_by_app.
  (* a task that is not touched *)
  assert (U : nth_error (m_tasks s') t0 = nth_error (m_tasks s) t0 -> sent_by t0 (mstamp (m_now s) os) = [] -> stored_by t0 (mstamp (m_now s) os) = [] ->
     match nth_error (m_tasks s') t0 with
     | None => sent_by t0 tr ++ sent_by t0 (mstamp (m_now s) os) = [] /\ stored_by t0 tr ++ stored_by t0 (mstamp (m_now s) os) = []
     | Some (MPush node h d) => sent_by t0 tr ++ sent_by t0 (mstamp (m_now s) os) = [(node, qm false 2 h (Some d))] /\ stored_by t0 tr ++ stored_by t0 (mstamp (m_now s) os) = []
     | Some (MDone _) => stored_by t0 tr ++ stored_by t0 (mstamp (m_now s) os) = [] \/ exists b x, stored_by t0 tr ++ stored_by t0 (mstamp (m_now s) os) = [b] /\ nth_error (m_beats s') b = Some x /\ sent_by t0 tr ++ sent_by t0 (mstamp (m_now s) os) = [notice x]
     | Some _ => stored_by t0 tr ++ stored_by t0 (mstamp (m_now s) os) = []
     end).
  { intros E1 E2 E3. rewrite E1, E2, E3, !app_nil_r. destruct (nth_error (m_tasks s) t0) as [[| | |]|]; auto.
    destruct IH as [IH|(b & x & I1 & I2 & I3)]; [auto|right]. destruct (BK _ _ I2) as (y & Y & SI). exists b, y. rewrite (same_notice _ _ SI). auto. }
  destruct S as [dt s' D N T B Q|node m r s' N T B Q|node m h0 s' E N T B Q|node m h0 rest it s' E N T B Q|node m h0 d0 s' P NC N T B Q|t r r' p s' H K1 N T B Q|t it s' H N T B Q
    |t node h0 d0 s' H N T B Q|b0 node h0 d0 i due s' H D N T B Q|b0 node h0 d0 i r s' H N T B Q].
  1, 9, 10: apply U; [rewrite T; reflexivity|reflexivity|reflexivity].
  1, 2, 3, 4: destruct (Nat.eqb_spec t0 (length (m_tasks s))) as [->|NE];
    [|apply U; [rewrite T, nth_snoc; destruct (Nat.eqb_spec t0 (length (m_tasks s))); [contradiction|reflexivity]| |reflexivity]; cbn; destruct (Nat.eqb_spec (length (m_tasks s)) t0); [congruence|reflexivity]].
  1, 2, 3, 4: rewrite (proj2 (nth_error_None _ _)) in IH by lia; destruct IH as [I1 I2]; rewrite T, nth_snoc, Nat.eqb_refl, ?I1, I2; cbn; rewrite ?Nat.eqb_refl; auto.
  1, 2, 3: destruct (Nat.eqb_spec t0 t) as [->|NE];
    [|apply U; [rewrite T; apply nth_upd_other; congruence|reflexivity|]; cbn; destruct (Nat.eqb_spec t t0); [congruence|reflexivity]].
  - rewrite T, (nth_upd_same _ _ _ _ H). rewrite H in IH. cbn. left. rewrite app_nil_r.
    destruct K1 as [->|[(? & -> & _)|(? & ? & ? & -> & _)]]; [exact IH|exact IH|exact (proj2 IH)].
  - rewrite T, (nth_upd_same _ _ _ _ H). rewrite H in IH. cbn. left. rewrite IH. reflexivity.
  - rewrite T, (nth_upd_same _ _ _ _ H). rewrite H in IH. cbn. destruct IH as [I1 I2]. rewrite I1, I2, Nat.eqb_refl. right. exists (length (m_beats s)), (mkBeat node h0 d0 1 (BSleep (m_now s + 60000))).
    split; [reflexivity|]. split; [rewrite B, nth_snoc, Nat.eqb_refl; reflexivity|reflexivity].
Qed.
Lemma in_stored_by n t b tr : In (n, MStored t b) tr -> In b (stored_by t tr).
Proof. intros J. apply in_flat_map. exists (n, MStored t b). split; [exact J|]. cbn. rewrite Nat.eqb_refl. left. reflexivity. Qed.
Lemma stored_announced es s tr n t b : mexec mbox0 es s tr -> In (n, MStored t b) tr ->
  exists x m, nth_error (m_beats s) b = Some x /\ sent_by t tr = [(bt_node x, m)] /\ parts m = Some (WAITING, bt_handle x, Some (bt_data x)).
Proof.
  intros X J. apply announced_exec in X. specialize (X t). apply in_stored_by in J.
  destruct (nth_error (m_tasks s) t) as [[| | |]|]; try (rewrite (proj2 X) in J; destruct J); try (rewrite X in J; destruct J).
  destruct X as [X|(b' & x & E & B & S)]; [rewrite X in J; destruct J|]. rewrite E in J. destruct J as [<-|[]]. exists x, (qm false 2 (bt_handle x) (Some (bt_data x))).
  split; [exact B|]. split; [exact S|apply parts_qm].
Qed.
(** every queued message is such a stored one *)
Lemma queued_stored es s tr : mexec mbox0 es s tr -> forall h it, In it (queue h s) ->
  exists n t x, In (n, MStored t (it_beat it)) tr /\ nth_error (m_beats s) (it_beat it) = Some x /\ bt_node x = it_node it /\ bt_handle x = h /\ bt_data x = it_data it.
Proof.
  induction 1 as [|es s tr e s' os X IH S]; [intros h it []|]. apply step_case in S. pose proof (beats_keep _ _ _ _ S) as BK. intros h it J.
  assert (U : In it (queue h s) -> exists n t x, In (n, MStored t (it_beat it)) (tr ++ mstamp (m_now s) os) /\ nth_error (m_beats s') (it_beat it) = Some x /\ bt_node x = it_node it /\ bt_handle x = h /\ bt_data x = it_data it).
  { intros J'. destruct (IH h it J') as (n & t & x & K & B & E1 & E2 & E3). destruct (BK _ _ B) as (y & Y & F1 & F2 & F3). exists n, t, y. split; [apply in_or_app; auto|]. split; [exact Y|]. repeat split; congruence. }
  destruct S as [dt s' D N T B Q|node m r s' N T B Q|node m h0 s' E N T B Q|node m h0 rest it0 s' E N T B Q|node m h0 d0 s' P NC N T B Q|t r r' p s' H K1 N T B Q|t it0 s' H N T B Q
    |t node h0 d0 s' H N T B Q|b0 node h0 d0 i due s' H D N T B Q|b0 node h0 d0 i r s' H N T B Q]; rewrite Q in J; auto.
  - apply U. destruct (h =? h0) eqn:HH; [|exact J]. assert (h = h0) as -> by lia. rewrite E. apply in_or_app. auto.
  - destruct (h =? h0) eqn:HH; [|auto]. assert (h = h0) as -> by lia. apply in_app_or in J as [J|[<-|[]]]; [auto|].
    exists (m_now s), t. eexists. split; [apply in_or_app; right; left; reflexivity|]. cbn [it_beat]. split; [rewrite B, nth_snoc, Nat.eqb_refl; reflexivity|]. repeat split.
Qed.

(** a message that is queued is not stored again *)
Lemma push_queued s node m h d it : pushes m h d -> In it (queue h s) -> it_data it = d ->
  exists s' t, mstep s (EvMessage node m) = Some (s', [MIn node m; MRet t (Ok false)]) /\ (forall h', queue h' s' = queue h' s) /\ m_beats s' = m_beats s /\ m_tasks s' = m_tasks s ++ [MDone (Ok false)].
Proof.
  intros (e & P & D) J E.
  assert (X : is_type m_Mailbox_WakeupNotification m = false /\ is_type m_Mailbox_Queue m = true /\ int_val (getattr m "operation") = Some 0 /\ int_val (getattr m "queueHandle") = Some h).
  { unfold parts in P. destruct m; try discriminate P. match goal with _ : context [VObj ?x ?y] |- _ => rename x into k, y into dd end. destruct k as [c| | | | | |]; try discriminate P.
    cbn [is_type]. change (s_name m_Mailbox_Queue) with "Mailbox.Queue". change (s_name m_Mailbox_WakeupNotification) with "Mailbox.WakeupNotification".
    destruct (String.eqb_spec (s_name c) "Mailbox.Queue") as [->|]; [|discriminate]. split; [reflexivity|]. split; [reflexivity|].
    destruct (to_int (getattr _ "operation")) as [op|] eqn:O; [|discriminate]. destruct (to_int (getattr _ "queueHandle")) as [h0|] eqn:H; [|discriminate].
    injection P as -> -> _. split; apply int_val_ok; assumption. }
  destruct X as (T1 & T2 & O & H). cbn [mstep]. unfold on_message. rewrite T1, T2, O, H. destruct (parts_of m 0 h T2 O H) as (e' & P' & Y). rewrite P in P'. injection P' as <-. rewrite Y, <- D.
  unfold push_queue. set (s0 := add_mtask _ s). assert (Z0 : queue h s0 = queue h s) by reflexivity. cbv zeta. rewrite Z0.
  replace (existsb (fun it0 => checksum (it_data it0) =? checksum d) (queue h s)) with true.
  2:{ symmetry. apply existsb_exists. exists it. split; [exact J|]. rewrite E. lia. }
  eexists _, _. split; [reflexivity|]. split; [|split; [reflexivity|cbn; apply upd_end]]. intros h'.
  match goal with |- queue h' (set_mtask _ _ ?x) = _ => change (queue h' x = queue h' s) end. rewrite queue_set. destruct (h' =? h) eqn:HH; [|reflexivity]. replace h' with h by lia. reflexivity.
Qed.

(** ** C60, C62 *)
Lemma pop_last_snoc rest it : pop_last (rest ++ [it]) = Some (it, rest).
Proof. unfold pop_last. rewrite rev_app_distr. cbn. rewrite rev_involutive. reflexivity. Qed.
Lemma pop_empty t node h s : queue h s = [] -> pop_queue t node (Some h) s = (set_mtask t MEmpty s, [MSend (ByTask t) node (qm true 1 h None)]).
Proof. intros E. unfold pop_queue. rewrite E. cbn [pop_last rev]. rewrite queue_msg_ok. reflexivity. Qed.
Lemma pop_some t node h s rest it : queue h s = rest ++ [it] ->
  pop_queue t node (Some h) s = (set_mtask t (MPop it) (set_queue h rest s), [MSend (ByTask t) node (qm (is_nil rest) 1 h (Some (it_data it)))]).
Proof. intros E. unfold pop_queue. rewrite E, pop_last_snoc. cbv zeta. rewrite queue_msg_ok. reflexivity. Qed.
(** a wake-up, or the answer to a delivery, for queue [h] *)
Definition asks (m : val) (last : option Z) (h : Z) : Prop :=
  (is_type m_Mailbox_WakeupNotification m = true /\ int_val (getattr m "queueHandle") = Some h) \/
  (exists e h0, parts m = Some (4, h0, e) /\ h = (if h0 =? 0 then match last with Some l => l | None => 0 end else h0) /\ (h0 = 0 -> last <> None)).
Lemma parts_type m op h e : parts m = Some (op, h, e) -> is_type m_Mailbox_WakeupNotification m = false /\ is_type m_Mailbox_Queue m = true /\ int_val (getattr m "operation") = Some op /\ int_val (getattr m "queueHandle") = Some h.
Proof.
  intros P. unfold parts in P. destruct m; try discriminate P. match goal with _ : context [VObj ?x ?y] |- _ => rename x into k, y into dd end. destruct k as [c| | | | | |]; try discriminate P.
  cbn [is_type]. change (s_name m_Mailbox_Queue) with "Mailbox.Queue". change (s_name m_Mailbox_WakeupNotification) with "Mailbox.WakeupNotification".
  destruct (String.eqb_spec (s_name c) "Mailbox.Queue") as [->|]; [|discriminate]. split; [reflexivity|]. split; [reflexivity|].
  destruct (to_int (getattr _ "operation")) as [op'|] eqn:O; [|discriminate]. destruct (to_int (getattr _ "queueHandle")) as [h0|] eqn:H; [|discriminate].
  injection P as -> -> _. split; apply int_val_ok; assumption.
Qed.
Lemma answer s node m h : asks m (m_last s) h -> exists s', mstep s (EvMessage node m) = Some (s', [MIn node m; MSend (ByTask (length (m_tasks s))) node
   (match rev (queue h s) with [] => qm true 1 h None | it :: r => qm (is_nil r) 1 h (Some (it_data it)) end)]) /\
  (forall h', queue h' s' = if h' =? h then removelast (queue h s) else queue h' s) /\
  m_tasks s' = m_tasks s ++ [match rev (queue h s) with [] => MEmpty | it :: _ => MPop it end] /\ m_beats s' = m_beats s /\ m_now s' = m_now s.
Proof.
  intros A. cbn [mstep]. set (s0 := add_mtask _ s).
  assert (X : exists s1, m_queue s1 = m_queue s /\ (m_tasks s1 = m_tasks s0 /\ m_beats s1 = m_beats s /\ m_now s1 = m_now s) /\ on_message (length (m_tasks s)) node m s0 = pop_queue (length (m_tasks s)) node (Some h) s1).
  { unfold on_message. destruct A as [[T H]|(e & h0 & P & -> & L)].
    - rewrite T, H. eexists. split; [|split; [|reflexivity]]; [reflexivity|auto].
    - destruct (parts_type _ _ _ _ P) as (T1 & T2 & O & H). rewrite T1, T2, O, H. exists s0. split; [reflexivity|]. split; [auto|]. f_equal.
      destruct h0 as [|p|p]; [|reflexivity|reflexivity]. cbn. destruct (m_last s); [reflexivity|]. destruct (L eq_refl eq_refl). }
  destruct X as (s1 & Q & (T1 & B1 & N1) & ->). assert (U : forall p, upd (length (m_tasks s)) p (m_tasks s1) = m_tasks s ++ [p]) by (intros p; rewrite T1; apply upd_end). destruct (rev (queue h s)) as [|it r] eqn:R.
  - assert (queue h s = []) as E by (rewrite <- (rev_involutive (queue h s)), R; reflexivity). rewrite pop_empty by (rewrite (queue_eq s s1 Q); exact E).
    eexists. split; [reflexivity|]. split; [|split; [cbn; apply U|auto]]. intros h'. change (queue h' s1 = if h' =? h then removelast (queue h s) else queue h' s). rewrite (queue_eq s s1 Q), E. destruct (h' =? h) eqn:HH; [|reflexivity]. replace h' with h by lia. exact E.
  - assert (queue h s = rev r ++ [it]) as E by (rewrite <- (rev_involutive (queue h s)), R; reflexivity). rewrite (pop_some _ _ _ _ (rev r) it) by (rewrite (queue_eq s s1 Q); exact E).
    replace (is_nil (rev r)) with (is_nil r). 2:{ destruct r as [|x r]; [reflexivity|]. cbn. destruct (rev r); reflexivity. }
    eexists. split; [reflexivity|]. split; [|split; [cbn; apply U|auto]]. intros h'. change (queue h' (set_queue h (rev r) s1) = if h' =? h then removelast (queue h s) else queue h' s).
    rewrite queue_set, (queue_eq s s1 Q), E, removelast_last. reflexivity.
Qed.
Lemma delivered_app h l k : delivered h (l ++ k) = delivered h l ++ delivered h k.
Proof. apply flat_map_app. Qed.
Lemma wakes_deliver node h : forall q s, queue h s = rev q -> exists s' tr, mrun s (wake_all node h (length (m_tasks s)) (length q)) = Some (s', tr) /\ delivered h tr = map it_data q /\ queue h s' = [].
Proof.
  induction q as [|it q IH]; intros s E; [exists s, []; auto|]. cbn [length wake_all mrun].
  destruct (answer s node (wake_msg h) h) as (s1 & M & Q1 & T1 & B1 & N1); [left; auto|]. rewrite M. rewrite E, rev_involutive in T1. specialize (Q1 h). rewrite Z.eqb_refl, E in Q1. cbn [rev] in Q1. rewrite removelast_last in Q1.
  assert (L : nth_error (m_tasks s1) (length (m_tasks s)) = Some (MPop it)) by (rewrite T1, nth_snoc, Nat.eqb_refl; reflexivity).
  destruct (mstep s1 (EvSent (length (m_tasks s)) (Ok true))) as [[s2 o2]|] eqn:M2.
  2:{ cbn [mstep] in M2. unfold sent in M2. rewrite L in M2. discriminate. }
  assert (E2 : queue h s2 = rev q /\ length (m_tasks s2) = S (length (m_tasks s)) /\ o2 = [MRet (length (m_tasks s)) (Ok true)]).
  { cbn [mstep] in M2. unfold sent in M2. rewrite L in M2. injection M2 as <- <-. split; [|split; [|reflexivity]].
    - rewrite <- Q1. unfold stop_beat. destruct (nth_error (m_beats s1) (it_beat it)); reflexivity.
    - unfold stop_beat. destruct (nth_error (m_beats s1) (it_beat it)); cbn; rewrite upd_length, T1, app_length; cbn; lia. }
  destruct E2 as (Q2 & L2 & ->). destruct (IH s2 Q2) as (s' & tr & R & D & QQ). rewrite L2 in R. rewrite R.
  eexists _, _. split; [reflexivity|]. split; [|exact QQ]. rewrite !delivered_app, D, E, rev_involutive. cbn [map mstamp]. change (delivered h [(m_now s1, MRet (length (m_tasks s)) (Ok true))]) with (@nil (list Z)). cbn [app].
  unfold delivered. cbn [flat_map snd map app]. rewrite parts_qm, Z.eqb_refl. reflexivity.
Qed.
Lemma push_new s node h d : ~ In (checksum d) (sums h s) -> exists s', mstep s (EvMessage node (push_msg h d)) = Some (s', [MIn node (push_msg h d); MSend (ByTask (length (m_tasks s))) node (qm false 2 h (Some d))]) /\
  (forall h', queue h' s' = queue h' s) /\ m_tasks s' = m_tasks s ++ [MPush node h d].
Proof.
  intros N. cbn [mstep on_message push_msg]. change (on_message (length (m_tasks s)) node (push_msg h d) (add_mtask (MDone (Err EUnmodelled)) s)) with
    (push_queue (length (m_tasks s)) node (Some h) d (add_mtask (MDone (Err EUnmodelled)) s)).
  unfold push_queue. set (s0 := add_mtask _ s). cbv zeta. change (queue h s0) with (queue h s).
  destruct (existsb _ _) eqn:X.
  - apply existsb_exists in X as (it & J & E). destruct N. apply in_map_iff. exists it. split; [lia|exact J].
  - rewrite queue_msg_ok. eexists. split; [reflexivity|]. split; [|cbn; apply upd_end]. intros h'.
    match goal with |- queue h' (set_mtask _ _ ?x) = _ => change (queue h' x = queue h' s) end. rewrite queue_set. destruct (h' =? h) eqn:HH; [|reflexivity]. replace h' with h by lia. reflexivity.
Qed.
Lemma pushes_store node h : forall ds s, NoDup (sums h s ++ map checksum ds) -> exists s' tr, mrun s (push_all node h (length (m_tasks s)) ds) = Some (s', tr) /\
  delivered h tr = [] /\ map it_data (queue h s') = map it_data (queue h s) ++ ds /\ length (m_tasks s') = (length (m_tasks s) + length ds)%nat.
Proof.
  induction ds as [|d ds IH]; intros s N; [exists s, []; rewrite app_nil_r; cbn; auto|]. cbn [push_all mrun].
  assert (NI : ~ In (checksum d) (sums h s)). { intros J. cbn [map] in N. apply NoDup_remove_2 in N. apply N. apply in_or_app. auto. }
  destruct (push_new s node h d NI) as (s1 & M & Q1 & T1). rewrite M.
  assert (L : nth_error (m_tasks s1) (length (m_tasks s)) = Some (MPush node h d)) by (rewrite T1, nth_snoc, Nat.eqb_refl; reflexivity).
  destruct (mstep s1 (EvSent (length (m_tasks s)) (Ok true))) as [[s2 o2]|] eqn:M2.
  2:{ cbn [mstep] in M2. unfold sent in M2. rewrite L in M2. discriminate. }
  pose proof (step_case _ _ _ _ M2) as C. inversion C as [| | | | |? ? ? ? ? H K|? ? ? H|? ? ? ? ? H N2 T2 B2 Q2| |]; subst; try (rewrite L in H; discriminate H).
  { rewrite L in H. injection H as <-. destruct K as [K|[(? & K & _)|(? & ? & ? & _ & K)]]; try discriminate K. destruct K. reflexivity. }
  rewrite L in H. injection H as <- <- <-. specialize (Q2 h). rewrite Z.eqb_refl, Q1 in Q2.
  assert (L2 : length (m_tasks s2) = S (length (m_tasks s))) by (rewrite T2, upd_length, T1, app_length; cbn; lia).
  destruct (IH s2) as (s' & tr & R & D & QQ & LL).
  { unfold sums. rewrite Q2, map_app, <- app_assoc. cbn [map it_data app]. exact N. }
  rewrite L2 in R. rewrite R. eexists _, _. split; [reflexivity|]. split; [|split].
  - rewrite !delivered_app, D. cbn [mstamp map]. unfold delivered. cbn [flat_map snd app]. rewrite parts_qm. reflexivity.
  - rewrite QQ, Q2, map_app, <- app_assoc. reflexivity.
  - rewrite LL, L2. cbn. lia.
Qed.
Lemma mrun_app es es' : forall s s1 tr1 s2 tr2, mrun s es = Some (s1, tr1) -> mrun s1 es' = Some (s2, tr2) -> mrun s (es ++ es') = Some (s2, tr1 ++ tr2).
Proof.
  induction es as [|e es IH]; intros s s1 tr1 s2 tr2 H H'; cbn in *; [injection H as <- <-; exact H'|].
  destruct (mstep s e) as [[s0 o]|]; [|discriminate]. destruct (mrun s0 es) as [[s3 tr3]|] eqn:R; [|discriminate]. injection H as <- <-.
  rewrite (IH _ _ _ _ _ R H'). rewrite app_assoc. reflexivity.
Qed.
Lemma reverse_order node h ds s : queue h s = [] -> NoDup (map checksum ds) ->
  exists s' tr, mrun s (push_all node h (length (m_tasks s)) ds ++ wake_all node h (length (m_tasks s) + length ds) (length ds)) = Some (s', tr) /\ delivered h tr = rev ds /\ queue h s' = [].
Proof.
  intros E N. destruct (pushes_store node h ds s) as (s1 & tr1 & R1 & D1 & Q1 & L1). { unfold sums. rewrite E. exact N. }
  rewrite E in Q1. cbn [map app] in Q1. destruct (wakes_deliver node h (rev (queue h s1)) s1) as (s2 & tr2 & R2 & D2 & Q2); [rewrite rev_involutive; reflexivity|].
  rewrite rev_length, L1 in R2. replace (length (queue h s1)) with (length ds) in R2 by (rewrite <- Q1, map_length; reflexivity).
  exists s2, (tr1 ++ tr2). split; [apply (mrun_app _ _ _ _ _ _ _ R1 R2)|]. split; [|exact Q2]. rewrite delivered_app, D1, D2, map_rev, Q1. reflexivity.
Qed.
