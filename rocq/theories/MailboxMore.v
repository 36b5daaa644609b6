(** Mailbox messages on the wire, heartbeats and the checksum (C61-C64, C75). *)
From Coq Require Import String ZArith List Bool Lia ZifyBool ZifyNat.
From Verif Require Import Py Schema Registry Codec Waiter ConnLemmas NodeProofs SpecBits BitLemmas SpecWire SpecDecode EncodeProofs DecodeProofs MailboxM SpecMailbox MailboxProofs.
Import ListNotations.
Open Scope list_scope.
Open Scope string_scope.
Open Scope list_scope.
Open Scope Z_scope.
Local Ltac in_reg := unfold registry; repeat (first [left; reflexivity | right]).

(** ** On the wire *)
Lemma qm_bytes last op h e : 0 <= op < 8 -> 0 <= h < 256 -> (forall d, e = Some d -> bytes_ok d) ->
  compose (qm last op h e) = Ok ([105; 4; 8 * (if last then 1 else 0) + op; h] ++ match e with Some d => d | None => [] end).
Proof.
  intros O H B. set (d := match e with Some d => d | None => [] end).
  assert (BD : bytes_ok d) by (unfold d; destruct e; [apply B; reflexivity|constructor]).
  assert (EN : encodes (qm last op h e) (nbits 8 105 ++ nbits 8 4 ++ (repeat false 4 ++ [last] ++ nbits 3 op ++ nbits 8 h ++ bits_of d ++ []))).
  { apply (E_msg m_Mailbox_Queue). { in_reg. }
    apply F_cons. { apply F_unset; [destruct e; reflexivity|]. apply (DB_res 4). }
    apply F_cons. { eapply F_set; [destruct e; reflexivity|reflexivity|]. apply FB_flag. }
    apply F_cons. { eapply F_set; [destruct e; reflexivity|reflexivity|]. apply (FB_ub 3). lia. }
    apply F_cons. { eapply F_set; [destruct e; reflexivity|reflexivity|]. apply (FB_int false 1). cbn. lia. }
    apply F_cons; [|apply F_nil]. unfold d. destruct e as [d0|].
    - eapply F_set; [reflexivity|reflexivity|]. apply FB_bytes. exact BD.
    - apply F_unset; [reflexivity|]. apply DB_bytes. }
  destruct (proj1 compose_all _ _ EN) as (_ & bs & EC & BO & EB). rewrite EC. f_equal. apply bits_of_inj; [exact BO| |].
  - cbn [app]. repeat (constructor; [destruct last; lia|]). exact BD.
  - rewrite EB. cbn [app]. rewrite !bits_of_cons, app_nil_r.
    assert (V : repeat false 4 ++ [last] ++ nbits 3 op = nbits 8 (8 * (if last then 1 else 0) + op)).
    { assert (op = 0 \/ op = 1 \/ op = 2 \/ op = 3 \/ op = 4 \/ op = 5 \/ op = 6 \/ op = 7) as C by lia. destruct last; repeat (destruct C as [->|C]; [reflexivity|]); subst op; reflexivity. }
    rewrite <- V. rewrite <- !app_assoc. reflexivity.
Qed.
Lemma queue_reads b h tl : bytes_ok (b :: h :: tl) -> exists m, decode (105 :: 4 :: b :: h :: tl) = Ok m /\
  parts m = Some (b mod 8, h, match tl with [] => None | _ => Some tl end) /\ is_type m_Mailbox_Queue m = true.
Proof.
  intros B. pose proof (decode_flat m_Mailbox_Queue (b :: h :: tl) ltac:(in_reg) eq_refl B) as X. inversion B as [|? ? HB B']; subst. inversion B' as [|? ? HH BT]; subst.
  rewrite !bits_of_cons in X. set (q := bits_of tl) in X.
  assert (C : cut (s_attrs m_Mailbox_Queue) (nbits 8 b ++ nbits 8 h ++ q) = Some ([firstn 4 (nbits 8 b); firstn 1 (skipn 4 (nbits 8 b)); skipn 5 (nbits 8 b); nbits 8 h] ++ match q with [] => [] | _ => [q] end)).
  { cbn. destruct q; reflexivity. }
  rewrite C in X. destruct X as (d & E & G). exists (VObj (CMsg m_Mailbox_Queue) d). split; [exact E|]. split; [|reflexivity].
  assert (HO : getattr (VObj (CMsg m_Mailbox_Queue) d) "operation" = VU 3 (b mod 8)).
  { specialize (G "operation"). rewrite getattr_spec. destruct q; cbn in G; destruct G as (v & t & A & DT & R); injection DT as <-; inversion R; subst; rewrite A; f_equal;
    match goal with |- num ?l = _ => change l with (nbits 3 b) end; rewrite num_nbits; reflexivity. }
  assert (HQ : getattr (VObj (CMsg m_Mailbox_Queue) d) "queueHandle" = VI false 1 h).
  { specialize (G "queueHandle"). rewrite getattr_spec. destruct q; cbn in G; destruct G as (v & t & A & DT & R); injection DT as <-; inversion R; subst; rewrite A; f_equal;
    match goal with |- num ?l = _ => change l with (nbits 8 h) end; apply num_nbits_small; cbn; lia. }
  unfold parts. change (String.eqb (s_name m_Mailbox_Queue) "Mailbox.Queue") with true. cbv iota. rewrite HO, HQ. cbn [to_int]. do 2 f_equal.
  specialize (G "mailboxEntry"). destruct q as [|q0 qs] eqn:EQ.
  - cbn in G. rewrite G. destruct tl as [|x tl]; [reflexivity|]. unfold q in EQ. rewrite bits_of_cons in EQ. discriminate EQ.
  - cbn in G. destruct G as (v & t & A & DT & R). injection DT as <-. inversion R as [| | | | | |? bs BB EB| |]; subst. rewrite A.
    assert (bs = tl) as -> by (apply bits_of_inj; [exact BB|exact BT|rewrite EB; unfold q in EQ; congruence]).
    destruct tl; [discriminate EQ|reflexivity].
Qed.
Lemma wake_reads h tl : bytes_ok (h :: tl) -> exists m, decode (105 :: 5 :: h :: tl) = Ok m /\ is_type m_Mailbox_WakeupNotification m = true /\ int_val (getattr m "queueHandle") = Some h.
Proof.
  intros B. pose proof (decode_flat m_Mailbox_WakeupNotification (h :: tl) ltac:(in_reg) eq_refl B) as X. inversion B as [|? ? HH BT]; subst.
  rewrite bits_of_cons in X. set (q := bits_of tl) in X. change (cut (s_attrs m_Mailbox_WakeupNotification) (nbits 8 h ++ q)) with (Some [nbits 8 h]) in X.
  destruct X as (d & E & G). exists (VObj (CMsg m_Mailbox_WakeupNotification) d). split; [exact E|]. split; [reflexivity|].
  specialize (G "queueHandle"). rewrite getattr_spec. cbn in G. destruct G as (v & t & A & DT & R); injection DT as <-; inversion R; subst; rewrite A. cbn [int_val to_int]. f_equal.
  match goal with |- num ?l = _ => change l with (nbits 8 h) end; apply num_nbits_small; cbn; lia.
Qed.
(** ** C62 *)
Definition data_ok (h : Z) (s : mbox) : Prop := forall it, In it (queue h s) -> bytes_ok (it_data it).
Lemma reply_bytes h s : 0 <= h < 256 -> data_ok h s ->
  compose (match rev (queue h s) with [] => qm true 1 h None | it :: r => qm (is_nil r) 1 h (Some (it_data it)) end) =
  Ok (match rev (queue h s) with [] => [105; 4; 9; h] | it :: r => [105; 4; match r with [] => 9 | _ => 1 end; h] ++ it_data it end).
Proof.
  intros H B. destruct (rev (queue h s)) as [|it r] eqn:R.
  - rewrite qm_bytes; [reflexivity|lia|exact H|discriminate].
  - rewrite qm_bytes; [destruct r; reflexivity|lia|exact H|]. intros d [= <-]. apply B. apply in_rev. rewrite R. left. reflexivity.
Qed.
Lemma wake_last s node m h s' o : is_type m_Mailbox_WakeupNotification m = true -> int_val (getattr m "queueHandle") = Some h -> mstep s (EvMessage node m) = Some (s', o) -> m_last s' = Some h.
Proof.
  intros T Q E. cbn [mstep] in E. unfold on_message in E. rewrite T, Q in E.
  assert (P : forall t n s0, m_last (fst (pop_queue t n (Some h) s0)) = m_last s0).
  { intros t n s0. unfold pop_queue. destruct (pop_last (queue h s0)) as [[it rest]|]; cbv zeta; destruct (queue_msg _ _ _ _); reflexivity. }
  match type of E with context [pop_queue ?t ?n ?h ?s0] => pose proof (P t n s0) as P0; destruct (pop_queue t n h s0) as [s1 o1] end. injection E as <- <-. exact P0.
Qed.
Lemma last_flag_wake s node h tl : bytes_ok (h :: tl) -> data_ok h s -> exists m s' reply, decode (105 :: 5 :: h :: tl) = Ok m /\
  mstep s (EvMessage node m) = Some (s', [MIn node m; MSend (ByTask (length (m_tasks s))) node reply]) /\
  compose reply = Ok (match rev (queue h s) with [] => [105; 4; 9; h] | it :: r => [105; 4; match r with [] => 9 | _ => 1 end; h] ++ it_data it end) /\
  queue h s' = removelast (queue h s) /\ m_last s' = Some h.
Proof.
  intros B D. destruct (wake_reads h tl B) as (m & E & T & Q). inversion B; subst.
  destruct (answer s node m h (or_introl (conj T Q))) as (s' & M & QQ & _). eexists m, s', _. split; [exact E|]. split; [exact M|]. split; [apply reply_bytes; assumption|].
  rewrite QQ, Z.eqb_refl. split; [reflexivity|exact (wake_last _ _ _ _ _ _ T Q M)].
Qed.
Lemma last_flag_ack s node b h0 tl h : bytes_ok (b :: h0 :: tl) -> b mod 8 = 4 -> (h0 <> 0 /\ h = h0 \/ h0 = 0 /\ m_last s = Some h) -> 0 <= h < 256 -> data_ok h s -> exists m s' reply, decode (105 :: 4 :: b :: h0 :: tl) = Ok m /\
  mstep s (EvMessage node m) = Some (s', [MIn node m; MSend (ByTask (length (m_tasks s))) node reply]) /\
  compose reply = Ok (match rev (queue h s) with [] => [105; 4; 9; h] | it :: r => [105; 4; match r with [] => 9 | _ => 1 end; h] ++ it_data it end) /\
  queue h s' = removelast (queue h s).
Proof.
  intros B OP HH H D. destruct (queue_reads b h0 tl B) as (m & E & P & T). rewrite OP in P.
  assert (A : asks m (m_last s) h).
  { right. do 2 eexists. split; [exact P|]. destruct HH as [[N ->]|[-> L]].
    - replace (h0 =? 0) with false by lia. split; [reflexivity|lia].
    - rewrite L. split; [reflexivity|discriminate]. }
  destruct (answer s node m h A) as (s' & M & QQ & _). eexists m, s', _. split; [exact E|]. split; [exact M|]. split; [apply reply_bytes; assumption|].
  rewrite QQ, Z.eqb_refl. reflexivity.
Qed.

(** ** C63 *)
Lemma queue_changes s e s' os h : mstep s e = Some (s', os) ->
  queue h s' = queue h s \/
  (exists t node d b, e = EvSent t (Ok true) /\ nth_error (m_tasks s) t = Some (MPush node h d) /\ queue h s' = queue h s ++ [mkItem node d b]) \/
  (exists node m it w reply, e = EvMessage node m /\ queue h s = queue h s' ++ [it] /\ os = [MIn node m; MSend w node reply] /\ delivers reply h (it_data it)).
Proof.
  intros S. apply step_case in S.
  destruct S as [dt s' D N T B Q|node m r s' N T B Q|node m h0 s' E N T B Q|node m h0 rest it s' E N T B Q|node m h0 d0 s' P NC N T B Q|t r r' p s' H K N T B Q|t it s' H N T B Q
    |t node h0 d0 s' H N T B Q|b node h0 d0 i due s' H D N T B Q|b node h0 d0 i r s' H N T B Q]; try (left; apply Q).
  - rewrite Q. destruct (h =? h0) eqn:HH; [|auto]. assert (h = h0) as -> by lia. right. right. do 5 eexists. split; [reflexivity|]. split; [exact E|]. split; [reflexivity|apply parts_qm].
  - rewrite Q. destruct (h =? h0) eqn:HH; [|auto]. assert (h = h0) as -> by lia. right. left. do 4 eexists. split; [reflexivity|]. split; [exact H|reflexivity].
Qed.

(** ** C64 *)
Definition beat_op (k : Z) : Z := if k mod 10 =? 0 then 3 else 2.
Definition last_time (n0 : Z) (l : list (Z * Z * val)) : Z := last (map (fun x => fst (fst x)) l) n0.
Lemma last_time_snoc n0 l x : last_time n0 (l ++ [x]) = fst (fst x).
Proof. unfold last_time. rewrite map_app. cbn. apply last_last. Qed.
Lemma spaced_snoc l : forall n0 n a m, spaced n0 l -> last_time n0 l + 60000 <= n -> spaced n0 (l ++ [(n, a, m)]).
Proof.
  induction l as [|[[n1 a1] m1] l IH]; intros n0 n a m S L; [cbn in *; auto|]. cbn [spaced app] in *. destruct S as [S1 S2]. split; [exact S1|]. apply IH; [exact S2|].
  replace (last_time n1 l) with (last_time n0 ((n1, a1, m1) :: l)); [exact L|]. unfold last_time. cbn [map fst]. clear. generalize (map (fun x : Z * Z * val => fst (fst x)) l). intros k. revert n1.
  induction k as [|y k IH]; intros n1; [reflexivity|]. change (last (n1 :: y :: k) n0) with (last (y :: k) n0). rewrite IH. destruct k; [reflexivity|]. cbn. clear. revert z. induction k as [|w k IH]; intros z; [reflexivity|]. cbn. apply (IH w).
Qed.
Definition said_by (x : beat) (hb : list (Z * Z * val)) : Prop :=
  forall k n node m, nth_error hb k = Some (n, node, m) -> node = bt_node x /\ m = qm false (beat_op (Z.of_nat k + 1)) (bt_handle x) (Some (bt_data x)).
Definition stored_at (b : nat) (tr : list (Z * mobs)) : list Z := flat_map (fun x => match snd x with MStored _ b' => if Nat.eqb b' b then [fst x] else [] | _ => [] end) tr.
Definition beat_ok (s : mbox) (tr : list (Z * mobs)) (b : nat) : Prop :=
  match nth_error (m_beats s) b with
  | None => heartbeats b tr = [] /\ stored_at b tr = []
  | Some x => exists n0, stored_at b tr = [n0] /\ n0 <= m_now s /\ said_by x (heartbeats b tr) /\ spaced n0 (heartbeats b tr) /\ last_time n0 (heartbeats b tr) <= m_now s /\
      match bt_pc x with
      | BSleep due => bt_i x = Z.of_nat (length (heartbeats b tr)) + 1 /\ last_time n0 (heartbeats b tr) + 60000 <= due
      | BSending => bt_i x = Z.of_nat (length (heartbeats b tr))
      | BOver => True
      end
  end.
Lemma heartbeats_app b l k : heartbeats b (l ++ k) = heartbeats b l ++ heartbeats b k.
Proof. apply flat_map_app. Qed.
Lemma stored_at_app b l k : stored_at b (l ++ k) = stored_at b l ++ stored_at b k.
Proof. apply flat_map_app. Qed.
Lemma said_same x y hb : same_item x y -> said_by x hb -> said_by y hb.
Proof. intros (E1 & E2 & E3) S k n node m H. rewrite E1, E2, E3. eauto. Qed.
Lemma now_mono s e s' os : mcase s e s' os -> m_now s <= m_now s'.
Proof. intros C. destruct C; lia. Qed.
Lemma beats_exec es s tr : mexec mbox0 es s tr -> forall b, beat_ok s tr b.
Proof.
  induction 1 as [|es s tr e s' os X IH S]; [intros [|b]; split; reflexivity|]. apply step_case in S. pose proof (beats_keep _ _ _ _ S) as BK. pose proof (now_mono _ _ _ _ S) as NM.
  intros b. specialize (IH b). unfold beat_ok in *. rewrite heartbeats_app, stored_at_app.
  assert (U : nth_error (m_beats s') b = nth_error (m_beats s) b -> heartbeats b (mstamp (m_now s) os) = [] -> stored_at b (mstamp (m_now s) os) = [] ->
    match nth_error (m_beats s') b with
    | None => heartbeats b tr ++ heartbeats b (mstamp (m_now s) os) = [] /\ stored_at b tr ++ stored_at b (mstamp (m_now s) os) = []
    | Some x => exists n0, stored_at b tr ++ stored_at b (mstamp (m_now s) os) = [n0] /\ n0 <= m_now s' /\ said_by x (heartbeats b tr ++ heartbeats b (mstamp (m_now s) os)) /\ spaced n0 (heartbeats b tr ++ heartbeats b (mstamp (m_now s) os)) /\
        last_time n0 (heartbeats b tr ++ heartbeats b (mstamp (m_now s) os)) <= m_now s' /\
      match bt_pc x with
      | BSleep due => bt_i x = Z.of_nat (length (heartbeats b tr ++ heartbeats b (mstamp (m_now s) os))) + 1 /\ last_time n0 (heartbeats b tr ++ heartbeats b (mstamp (m_now s) os)) + 60000 <= due
      | BSending => bt_i x = Z.of_nat (length (heartbeats b tr ++ heartbeats b (mstamp (m_now s) os)))
      | BOver => True
      end
    end).
  { intros E1 E2 E3. rewrite E1, E2, E3, !app_nil_r. destruct (nth_error (m_beats s) b) as [x|]; [|exact IH]. destruct IH as (n0 & I1 & I2 & I3 & I4 & I5 & I6). exists n0. split; [exact I1|]. split; [lia|]. split; [exact I3|]. split; [exact I4|]. split; [lia|exact I6]. }
  destruct S as [dt s' D N T B Q|node m r s' N T B Q|node m h0 s' E N T B Q|node m h0 rest it s' E N T B Q|node m h0 d0 s' P NC N T B Q|t r r' p s' H K N T B Q|t it s' H N T B Q
    |t node h0 d0 s' H N T B Q|b0 node h0 d0 i due s' H D N T B Q|b0 node h0 d0 i r s' H N T B Q]; try (apply U; [rewrite B; reflexivity|reflexivity|reflexivity]).
  - (* popped *) destruct (nth_error (m_beats s) (it_beat it)) as [y|] eqn:EY; [|apply U; [rewrite B; reflexivity|reflexivity|reflexivity]].
    destruct (Nat.eqb_spec (it_beat it) b) as [EB|NE]; [|apply U; [rewrite B; apply nth_upd_other; exact NE|reflexivity|reflexivity]].
    rewrite B, nth_upd, EB, Nat.eqb_refl. rewrite EB in EY. rewrite EY in *. cbn [heartbeats stored_at mstamp map flat_map snd app]. rewrite !app_nil_r.
    destruct IH as (n0 & I1 & I2 & I3 & I4 & I5 & I6). exists n0. rewrite N. split; [exact I1|]. split; [lia|]. split; [eapply said_same; [|exact I3]; repeat split|]. split; [exact I4|]. split; [lia|exact I].
  - (* stored *) destruct (Nat.eqb_spec b (length (m_beats s))) as [->|NE].
    + rewrite (proj2 (nth_error_None _ _)) in IH by lia. destruct IH as [I1 I2]. rewrite B, nth_snoc, Nat.eqb_refl, I1, I2. exists (m_now s). cbn. rewrite Nat.eqb_refl. split; [reflexivity|]. rewrite N. split; [lia|].
      split; [intros [|k]; discriminate|]. split; [exact I|]. split; [lia|]. split; [reflexivity|lia].
    + apply U; [rewrite B, nth_snoc; destruct (Nat.eqb_spec b (length (m_beats s))); [contradiction|reflexivity]|reflexivity|]. cbn. destruct (Nat.eqb_spec (length (m_beats s)) b); [congruence|reflexivity].
  - (* beat *) destruct (Nat.eqb_spec b0 b) as [->|NE].
    2:{ apply U; [rewrite B; apply nth_upd_other; exact NE|cbn; destruct (Nat.eqb_spec b0 b); [contradiction|reflexivity]|reflexivity]. }
    rewrite B, (nth_upd_same _ _ _ _ H). rewrite H in IH. destruct IH as (n0 & I1 & I2 & I3 & I4 & I5 & I6 & I7). cbn [bt_pc bt_i] in I6, I7. exists n0.
    set (hb := heartbeats b tr) in *. set (mm := qm false (if i mod 10 =? 0 then 3 else 2) h0 (Some d0)).
    assert (HE : heartbeats b (mstamp (m_now s) [MSend (ByBeat b) node mm]) = [(m_now s, node, mm)]) by (cbn; rewrite Nat.eqb_refl; reflexivity).
    assert (SE : stored_at b (mstamp (m_now s) [MSend (ByBeat b) node mm]) = []) by reflexivity. rewrite HE, SE, app_nil_r. rewrite N.
    split; [exact I1|]. split; [exact I2|]. split; [|split; [|split]].
    + intros k n nd m0 J. rewrite nth_snoc in J. destruct (Nat.eqb_spec k (length hb)) as [->|]; [|apply (I3 _ _ _ _ J)]. injection J as <- <- <-. split; [reflexivity|]. unfold mm, beat_op. rewrite I6. reflexivity.
    + apply spaced_snoc; [exact I4|lia].
    + rewrite last_time_snoc. cbn. lia.
    + cbn [bt_pc bt_i]. rewrite app_length. cbn. lia.
  - (* beat sent *) destruct (Nat.eqb_spec b0 b) as [->|NE].
    2:{ apply U; [rewrite B; apply nth_upd_other; exact NE|reflexivity|reflexivity]. }
    rewrite B, (nth_upd_same _ _ _ _ H). rewrite H in IH. destruct IH as (n0 & I1 & I2 & I3 & I4 & I5 & I6). cbn [bt_pc bt_i] in I6. exists n0. cbn [mstamp map]. rewrite !app_nil_r, N.
    split; [exact I1|]. split; [exact I2|]. split; [exact I3|]. split; [exact I4|]. split; [exact I5|]. cbn [bt_pc bt_i]. destruct r; [lia|exact I].
Qed.
(** times of heartbeats when nothing is late and sending takes no time *)
Definition on_time (n0 : Z) (l : list (Z * Z * val)) : Prop := forall k n node m, nth_error l k = Some (n, node, m) -> n = n0 + 60000 * (Z.of_nat k + 1).
Lemma prompt_exec es s tr : prompt es s tr -> mexec mbox0 es s tr.
Proof. induction 1; econstructor; eauto. Qed.
Definition prompt_ok (s : mbox) (tr : list (Z * mobs)) (b : nat) : Prop :=
  forall x n0, nth_error (m_beats s) b = Some x -> stored_at b tr = [n0] -> on_time n0 (heartbeats b tr) /\
    match bt_pc x with
    | BSleep due => due = n0 + 60000 * (Z.of_nat (length (heartbeats b tr)) + 1) /\ due - 60000 <= m_now s <= due
    | BSending => m_now s = n0 + 60000 * Z.of_nat (length (heartbeats b tr))
    | BOver => True
    end.
Lemma prompt_times es s tr : prompt es s tr -> forall b, prompt_ok s tr b.
Proof.
  induction 1 as [|es s tr e s' os X IH NF ST S]; [intros [|b] x n0 H; discriminate|]. pose proof (prompt_exec _ _ _ X) as XE. apply step_case in S.
  intros b x n0 H0 H1. specialize (IH b). rewrite stored_at_app in H1. rewrite heartbeats_app.
  assert (U : nth_error (m_beats s') b = nth_error (m_beats s) b -> heartbeats b (mstamp (m_now s) os) = [] -> stored_at b (mstamp (m_now s) os) = [] -> m_now s' = m_now s ->
    on_time n0 (heartbeats b tr ++ heartbeats b (mstamp (m_now s) os)) /\
    match bt_pc x with
    | BSleep due => due = n0 + 60000 * (Z.of_nat (length (heartbeats b tr ++ heartbeats b (mstamp (m_now s) os))) + 1) /\ due - 60000 <= m_now s' <= due
    | BSending => m_now s' = n0 + 60000 * Z.of_nat (length (heartbeats b tr ++ heartbeats b (mstamp (m_now s) os)))
    | BOver => True
    end).
  { intros E1 E2 E3 E4. rewrite E3, app_nil_r in H1. rewrite E1 in H0. rewrite E2, E4, app_nil_r. exact (IH _ _ H0 H1). }
  destruct S as [dt s' D N T B Q|node m r s' N T B Q|node m h0 s' E N T B Q|node m h0 rest it s' E N T B Q|node m h0 d0 s' P NC N T B Q|t r r' p s' H K N T B Q|t it s' H N T B Q
    |t node h0 d0 s' H N T B Q|b0 node h0 d0 i due s' H D N T B Q|b0 node h0 d0 i r s' H N T B Q]; try (apply U; [rewrite B; reflexivity|reflexivity|reflexivity|exact N]).
  - (* tick *) specialize (ST _ eq_refl). cbn [mstamp map] in *. rewrite app_nil_r in *. rewrite B in H0. destruct (IH _ _ H0 H1) as [I1 I2]. split; [exact I1|]. specialize (ST _ _ H0). rewrite N. destruct (bt_pc x); [lia|lia|exact I].
  - destruct (nth_error (m_beats s) (it_beat it)) as [y|] eqn:EY; [|apply U; [rewrite B; reflexivity|reflexivity|reflexivity|exact N]].
    destruct (Nat.eqb_spec (it_beat it) b) as [EB|NE]; [|apply U; [rewrite B; apply nth_upd_other; exact NE|reflexivity|reflexivity|exact N]].
    rewrite B, nth_upd, EB, Nat.eqb_refl in H0. rewrite EB in EY. rewrite EY in H0. injection H0 as <-. cbn in *. rewrite app_nil_r in *. destruct (IH _ _ EY H1) as [I1 _]. auto.
  - destruct (Nat.eqb_spec b (length (m_beats s))) as [->|NE].
    + pose proof (beats_exec _ _ _ XE (length (m_beats s))) as BO. unfold beat_ok in BO. rewrite (proj2 (nth_error_None _ _)) in BO by lia. destruct BO as [B1 B2].
      rewrite B2 in H1. cbn in H1. rewrite Nat.eqb_refl in H1. injection H1 as <-. rewrite B, nth_snoc, Nat.eqb_refl in H0. injection H0 as <-. rewrite B1. cbn. split; [intros [|k]; discriminate|]. lia.
    + apply U; [rewrite B, nth_snoc; destruct (Nat.eqb_spec b (length (m_beats s))); [contradiction|reflexivity]|reflexivity| |exact N]. cbn. destruct (Nat.eqb_spec (length (m_beats s)) b); [congruence|reflexivity].
  - destruct (Nat.eqb_spec b0 b) as [->|NE].
    2:{ apply U; [rewrite B; apply nth_upd_other; exact NE|cbn; destruct (Nat.eqb_spec b0 b); [contradiction|reflexivity]|reflexivity|exact N]. }
    rewrite B, (nth_upd_same _ _ _ _ H) in H0. injection H0 as <-. rewrite app_nil_r in H1. destruct (IH _ _ H H1) as [I1 I2]. cbn [bt_pc] in *.
    set (mm := qm false (if i mod 10 =? 0 then 3 else 2) h0 (Some d0)). assert (HE : heartbeats b (mstamp (m_now s) [MSend (ByBeat b) node mm]) = [(m_now s, node, mm)]) by (cbn; rewrite Nat.eqb_refl; reflexivity).
    rewrite HE, app_length, N. cbn [length]. split; [|lia]. intros k n nd m0 J. rewrite nth_snoc in J. destruct (Nat.eqb_spec k (length (heartbeats b tr))) as [->|]; [|apply (I1 _ _ _ _ J)]. injection J as <- _ _. lia.
  - destruct (Nat.eqb_spec b0 b) as [->|NE].
    2:{ apply U; [rewrite B; apply nth_upd_other; exact NE|reflexivity|reflexivity|exact N]. }
    rewrite B, (nth_upd_same _ _ _ _ H) in H0. injection H0 as <-. cbn [mstamp map] in *. rewrite app_nil_r in *. destruct (IH _ _ H H1) as [I1 I2]. split; [exact I1|]. cbn [bt_pc] in *. destruct r; [lia|destruct NF; exact I].
Qed.
(** a queued message has a live heartbeat task *)
Definition alive (s : mbox) (b : nat) : Prop := exists x, nth_error (m_beats s) b = Some x /\ bt_pc x <> BOver.
Definition all_items (s : mbox) (it : item) : Prop := (exists h, In it (queue h s)) \/ exists t, nth_error (m_tasks s) t = Some (MPop it).
(** heartbeat tasks of queued and handed-over messages are different and exist *)
Definition own_beats (s : mbox) : Prop :=
  (forall it, all_items s it -> (it_beat it < length (m_beats s))%nat) /\
  (forall h i j it it', nth_error (queue h s) i = Some it -> nth_error (queue h s) j = Some it' -> it_beat it = it_beat it' -> i = j) /\
  (forall h h' it it', In it (queue h s) -> In it' (queue h' s) -> it_beat it = it_beat it' -> h = h') /\
  (forall h it t it', In it (queue h s) -> nth_error (m_tasks s) t = Some (MPop it') -> it_beat it <> it_beat it').
Lemma own_exec es s tr : mexec mbox0 es s tr -> own_beats s.
Proof.
  induction 1 as [|es s tr e s' os X IH S].
  { split; [intros it [[h []]|[[|t] H]]; discriminate H|]. split; [intros h [|i] j it it' H; discriminate|]. split; [intros h h' it it' []|intros h it t it' []]. }
  destruct IH as (I1 & I2 & I3 & I4). apply step_case in S.
  assert (BL : (length (m_beats s) <= length (m_beats s'))%nat).
  { destruct S; rewrite ?H3, ?H2, ?H1, ?H0; try lia; try (rewrite H4; lia).
    all: try match goal with H : m_beats _ = _ |- _ => rewrite H end; rewrite ?app_length, ?upd_length; try lia. destruct (nth_error (m_beats s) (it_beat it)); rewrite ?upd_length; lia. }
  assert (K : same_queues s s' -> (forall t it, nth_error (m_tasks s') t = Some (MPop it) -> nth_error (m_tasks s) t = Some (MPop it)) -> own_beats s').
  { intros Q P. split; [|split; [|split]].
    - intros it [[h J]|[t J]]; (enough (it_beat it < length (m_beats s))%nat by lia); apply I1; [left; exists h; rewrite <- Q; exact J|right; exists t; apply P; exact J].
    - intros h i j it it'. rewrite Q. apply I2.
    - intros h h' it it'. rewrite !Q. apply I3.
    - intros h it t it' J J'. rewrite Q in J. apply P in J'. eauto. }
  assert (AP : forall l p t it, (forall i, p <> MPop i) -> nth_error (l ++ [p]) t = Some (MPop it) -> nth_error l t = Some (MPop it)).
  { intros l p t it NP J. rewrite nth_snoc in J. destruct (Nat.eqb t (length l)); [|exact J]. injection J as ->. destruct (NP it eq_refl). }
  assert (UP : forall l t0 r t it, nth_error (upd t0 (MDone r) l) t = Some (MPop it) -> nth_error l t = Some (MPop it)).
  { intros l t0 r t it J. rewrite nth_upd in J. destruct (Nat.eqb t0 t); [destruct (nth_error l t0); discriminate|exact J]. }
  destruct S as [dt s' D N T B Q|node m r s' N T B Q|node m h0 s' E N T B Q|node m h0 rest it0 s' E N T B Q|node m h0 d0 s' P NC N T B Q|t0 r r' p s' H K1 N T B Q|t0 it0 s' H N T B Q
    |t0 node h0 d0 s' H N T B Q|b0 node h0 d0 i0 due s' H D N T B Q|b0 node h0 d0 i0 r s' H N T B Q].
  1, 9, 10: apply K; [exact Q|intros t it J; rewrite T in J; exact J].
  - apply K; [exact Q|intros t it J; rewrite T in J; eapply AP; [|exact J]; discriminate].
  - apply K; [exact Q|intros t it J; rewrite T in J; eapply AP; [|exact J]; discriminate].
  - (* deliver *) clear K.
    assert (SUB : forall h it, In it (queue h s') -> In it (queue h s)).
    { intros h it. rewrite Q. destruct (h =? h0) eqn:HH; [|auto]. assert (h = h0) as -> by lia. rewrite E. intros J. apply in_or_app. auto. }
    assert (IT0 : In it0 (queue h0 s)) by (rewrite E; apply in_or_app; right; left; reflexivity).
    split; [|split; [|split]].
    + intros it [[h J]|[t J]]; rewrite B; apply I1; [left; exists h; auto|]. rewrite T, nth_snoc in J. destruct (Nat.eqb t (length (m_tasks s))); [injection J as <-; left; exists h0; exact IT0|right; exists t; exact J].
    + intros h i j it it' J J' EQ. rewrite Q in J, J'. destruct (h =? h0); [|eauto]. apply (I2 h0 i j it it'); [rewrite E; rewrite nth_error_app1 by (eapply nth_lt; exact J); exact J|rewrite E; rewrite nth_error_app1 by (eapply nth_lt; exact J'); exact J'|exact EQ].
    + intros h h' it it' J J'. eauto.
    + intros h it t it' J J'. rewrite T, nth_snoc in J'. destruct (Nat.eqb t (length (m_tasks s))); [|eauto]. injection J' as <-. intros EQ.
      pose proof (I3 _ _ _ _ (SUB _ _ J) IT0 EQ) as ->. rewrite Q, Z.eqb_refl in J. apply In_nth_error in J as [i J].
      assert (i = length rest); [|apply nth_lt in J; lia]. apply (I2 h0 i (length rest) it it0); [rewrite E, nth_error_app1 by (eapply nth_lt; exact J); exact J|rewrite E, nth_snoc, Nat.eqb_refl; reflexivity|exact EQ].
  - apply K; [exact Q|intros t it J; rewrite T in J; eapply AP; [|exact J]; discriminate].
  - apply K; [exact Q|intros t it J; rewrite T in J; eapply UP; exact J].
  - apply K; [exact Q|intros t it J; rewrite T in J; eapply UP; exact J].
  - (* stored *) clear K. set (b := length (m_beats s)) in *.
    assert (OLD : forall it, all_items s it -> it_beat it <> b). { intros it A. specialize (I1 it A). unfold b. lia. }
    assert (QI : forall h it, In it (queue h s') -> In it (queue h s) \/ (h = h0 /\ it = mkItem node d0 b)).
    { intros h it. rewrite Q. destruct (h =? h0) eqn:HH; [|auto]. assert (h = h0) as -> by lia. intros J. apply in_app_or in J as [J|[<-|[]]]; auto. }
    split; [|split; [|split]].
    + intros it [[h J]|[t J]]; rewrite B, app_length; cbn [length].
      * destruct (QI _ _ J) as [J'|[_ ->]]; [specialize (I1 it (or_introl (ex_intro _ h J'))); lia|cbn; unfold b; lia].
      * rewrite T in J. apply UP in J. specialize (I1 it (or_intror (ex_intro _ t J))). lia.
    + intros h i j it it' J J' EQ. rewrite Q in J, J'. destruct (h =? h0); [|eauto]. rewrite nth_snoc in J, J'.
      destruct (Nat.eqb_spec i (length (queue h0 s))) as [->|], (Nat.eqb_spec j (length (queue h0 s))) as [->|]; [reflexivity| | |eauto].
      * injection J as <-. cbn in EQ. apply nth_error_In in J'. destruct (OLD it' (or_introl (ex_intro _ h0 J')) (eq_sym EQ)).
      * injection J' as <-. cbn in EQ. apply nth_error_In in J. destruct (OLD it (or_introl (ex_intro _ h0 J)) EQ).
    + intros h h' it it' J J' EQ. destruct (QI _ _ J) as [J1|[-> ->]], (QI _ _ J') as [J2|[-> ->]]; [eauto| | |reflexivity].
      * cbn in EQ. destruct (OLD it (or_introl (ex_intro _ h J1)) EQ).
      * cbn in EQ. destruct (OLD it' (or_introl (ex_intro _ h' J2)) (eq_sym EQ)).
    + intros h it t it' J J'. rewrite T in J'. apply UP in J'. destruct (QI _ _ J) as [J1|[-> ->]]; [eauto|]. cbn. intros EQ. destruct (OLD it' (or_intror (ex_intro _ t J')) (eq_sym EQ)).
Qed.
Lemma queued_alive es s tr : mexec mbox0 es s tr -> Forall (fun e => ~ beat_fails e) es -> forall h it, In it (queue h s) -> alive s (it_beat it).
Proof.
  induction 1 as [|es s tr e s' os X IH S]; [intros _ h it []|]. intros F. apply Forall_app in F as [F1 F2]. inversion F2 as [|? ? NF _]; subst. specialize (IH F1). clear F1 F2.
  destruct (own_exec _ _ _ X) as (I1 & I2 & I3 & I4). apply step_case in S. intros h it J.
  destruct S as [dt s' D N T B Q|node m r s' N T B Q|node m h0 s' E N T B Q|node m h0 rest it0 s' E N T B Q|node m h0 d0 s' P NC N T B Q|t0 r r' p s' H K1 N T B Q|t0 it0 s' H N T B Q
    |t0 node h0 d0 s' H N T B Q|b0 node h0 d0 i0 due s' H D N T B Q|b0 node h0 d0 i0 r s' H N T B Q]; rewrite Q in J; unfold alive; rewrite B; try (apply (IH h it J)).
  - destruct (h =? h0) eqn:HH; [|apply (IH h it J)]. assert (h = h0) as -> by lia. apply (IH h0 it). rewrite E. apply in_or_app. auto.
  - destruct (nth_error (m_beats s) (it_beat it0)) as [y|] eqn:EY; [|apply (IH h it J)]. destruct (IH h it J) as (x & G & A). exists x. split; [|exact A]. rewrite nth_upd_other; [exact G|]. intros EQ. apply (I4 _ _ _ _ J H). congruence.
  - assert (K : In it (queue h s) -> exists x, nth_error (m_beats s ++ [mkBeat node h0 d0 1 (BSleep (m_now s + 60000))]) (it_beat it) = Some x /\ bt_pc x <> BOver).
    { intros J'. destruct (IH h it J') as (x & G & A). exists x. split; [|exact A]. rewrite nth_error_app1 by (eapply nth_lt; exact G). exact G. }
    destruct (h =? h0) eqn:HH; [|auto]. assert (h = h0) as -> by lia. apply in_app_or in J as [J|[<-|[]]]; [auto|]. cbn [it_beat]. rewrite nth_snoc, Nat.eqb_refl. eexists. split; [reflexivity|]. discriminate.
  - destruct (IH h it J) as (x & G & A). rewrite nth_upd. destruct (Nat.eqb_spec b0 (it_beat it)) as [->|]; [rewrite G; eexists; split; [reflexivity|]; discriminate|eauto].
  - destruct (IH h it J) as (x & G & A). rewrite nth_upd. destruct (Nat.eqb_spec b0 (it_beat it)) as [->|]; [rewrite G; eexists; split; [reflexivity|]|eauto]. cbn. destruct r; [discriminate|]. destruct NF. exact I.
Qed.
Lemma prompt_fails es s tr : prompt es s tr -> Forall (fun e => ~ beat_fails e) es.
Proof. induction 1; [constructor|]. apply Forall_app. split; [assumption|]. constructor; [assumption|constructor]. Qed.
Lemma in_stored_at n t b tr : In (n, MStored t b) tr -> In n (stored_at b tr).
Proof. intros J. apply in_flat_map. exists (n, MStored t b). split; [exact J|]. cbn. rewrite Nat.eqb_refl. left. reflexivity. Qed.
(** each heartbeat says the right thing and comes at least 60 s after the one before *)
Lemma heartbeats_say es s tr n0 t b : mexec mbox0 es s tr -> In (n0, MStored t b) tr -> exists x, nth_error (m_beats s) b = Some x /\ spaced n0 (heartbeats b tr) /\
  forall k n node m, nth_error (heartbeats b tr) k = Some (n, node, m) -> node = bt_node x /\ parts m = Some (if (Z.of_nat k + 1) mod 10 =? 0 then PING else WAITING, bt_handle x, Some (bt_data x)).
Proof.
  intros X J. pose proof (beats_exec _ _ _ X b) as BO. apply in_stored_at in J. unfold beat_ok in BO. destruct (nth_error (m_beats s) b) as [x|]; [|rewrite (proj2 BO) in J; destruct J].
  destruct BO as (n1 & I1 & _ & I3 & I4 & _). rewrite I1 in J. destruct J as [<-|[]]. exists x. split; [reflexivity|]. split; [exact I4|]. intros k n node m H. destruct (I3 _ _ _ _ H) as [-> ->]. split; [reflexivity|]. apply parts_qm.
Qed.
Lemma heartbeats_prompt es s tr n0 t h it : prompt es s tr -> In it (queue h s) -> In (n0, MStored t (it_beat it)) tr ->
  let hb := heartbeats (it_beat it) tr in on_time n0 hb /\ n0 + 60000 * Z.of_nat (length hb) <= m_now s <= n0 + 60000 * (Z.of_nat (length hb) + 1).
Proof.
  intros P J I hb. pose proof (prompt_exec _ _ _ P) as X. destruct (queued_alive _ _ _ X (prompt_fails _ _ _ P) h it J) as (x & G & A).
  apply in_stored_at in I. pose proof (beats_exec _ _ _ X (it_beat it)) as BO. unfold beat_ok in BO. rewrite G in BO. destruct BO as (n1 & I1 & _). pose proof I as I'. rewrite I1 in I'. destruct I' as [->|[]].
  destruct (prompt_times _ _ _ P _ _ _ G I1) as [T1 T2]. split; [exact T1|]. fold hb in T2. destruct (bt_pc x); [lia|lia|contradiction].
Qed.
(** none after an acknowledged delivery *)
Lemma over_stays s es s' tr b x : mexec s es s' tr -> nth_error (m_beats s) b = Some x -> bt_pc x = BOver -> heartbeats b tr = [] /\ exists y, nth_error (m_beats s') b = Some y /\ bt_pc y = BOver.
Proof.
  intros X G O. induction X as [|es s1 tr e s2 os X IH S]; [eauto|]. destruct IH as (HB & y & GY & OY). apply step_case in S. rewrite heartbeats_app, HB.
  destruct S as [dt s' D N T B Q|node m r s' N T B Q|node m h0 s' E N T B Q|node m h0 rest it0 s' E N T B Q|node m h0 d0 s' P NC N T B Q|t0 r r' p s' H K1 N T B Q|t0 it0 s' H N T B Q
    |t0 node h0 d0 s' H N T B Q|b0 node h0 d0 i0 due s' H D N T B Q|b0 node h0 d0 i0 r s' H N T B Q]; (split; [|rewrite B]); eauto; try reflexivity.
  - destruct (nth_error (m_beats s1) (it_beat it0)) as [z|] eqn:EZ; [|eauto]. rewrite nth_upd. destruct (Nat.eqb_spec (it_beat it0) b) as [EB|]; [rewrite EZ; eexists; split; [reflexivity|reflexivity]|eauto].
  - rewrite nth_error_app1 by (eapply nth_lt; exact GY). eauto.
  - cbn. destruct (Nat.eqb_spec b0 b) as [->|]; [|reflexivity]. rewrite GY in H. injection H as ->. discriminate OY.
  - rewrite nth_upd. destruct (Nat.eqb_spec b0 b) as [->|]; [|eauto]. rewrite GY in H. injection H as ->. discriminate OY.
  - rewrite nth_upd. destruct (Nat.eqb_spec b0 b) as [->|]; [|eauto]. rewrite GY in H. injection H as ->. discriminate OY.
Qed.
Lemma delivered_silent es s tr t it s1 os es2 s2 tr2 : mexec mbox0 es s tr -> nth_error (m_tasks s) t = Some (MPop it) -> mstep s (EvSent t (Ok true)) = Some (s1, os) -> mexec s1 es2 s2 tr2 -> heartbeats (it_beat it) tr2 = [].
Proof.
  intros X H S X2. destruct (own_exec _ _ _ X) as (I1 & _). specialize (I1 it (or_intror (ex_intro _ t H))). destruct (nth_error (m_beats s) (it_beat it)) as [x|] eqn:G; [|apply nth_error_None in G; lia].
  apply step_case in S. inversion S as [| | | | |? ? ? ? ? H' K|? it1 ? H' N T B Q|? ? ? ? ? H'| |]; subst; try (rewrite H in H'; discriminate H').
  - rewrite H in H'. injection H' as <-. destruct K as [K|[(? & _ & K)|(? & ? & ? & K & _)]]; try discriminate K. destruct K. reflexivity.
  - rewrite H in H'. injection H' as <-. rewrite G in B. eapply over_stays; [exact X2|rewrite B; apply (nth_upd_same _ _ _ _ G)|reflexivity].
Qed.
Lemma mexec_cons s e s1 os es s' tr : mstep s e = Some (s1, os) -> mexec s1 es s' tr -> mexec s (e :: es) s' (mstamp (m_now s) os ++ tr).
Proof.
  intros S X. induction X as [|es s2 tr e2 s3 os3 X IH S3]; [rewrite app_nil_r; exact (MX_snoc s [] s [] e s1 os (MX_nil s) S)|].
  rewrite app_assoc. exact (MX_snoc s (e :: es) s2 _ e2 s3 os3 IH S3).
Qed.
Lemma mrun_exec es : forall s s' tr, mrun s es = Some (s', tr) -> mexec s es s' tr.
Proof.
  induction es as [|e es IH]; intros s s' tr R; cbn in R; [injection R as <- <-; constructor|].
  destruct (mstep s e) as [[s1 o]|] eqn:S; [|discriminate]. destruct (mrun s1 es) as [[s2 tr2]|] eqn:R2; [|discriminate]. injection R as <- <-. eapply mexec_cons; eauto.
Qed.
