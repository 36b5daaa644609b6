(** Replies are fresh (C35), sessions are cleaned up (C37), datagram handling (C30-C32), keep-alive (C33). *)
From Coq Require Import String ZArith List Bool Lia ZifyBool ZifyNat.
From Verif Require Import Py BitStream Schema Registry Codec SpecBits BitLemmas SpecWire SpecDecode HeaderProofs ReportProofs
  Waiter Conn SpecConn ConnLemmas ConnPacket ConnAck ConnInv ConnCases ConnProps ConnCalm ConnWait ConnReply ConnFirst.
Import ListNotations.
Open Scope list_scope.
Open Scope string_scope.
Open Scope list_scope.
Open Scope Z_scope.

(** ** C35 *)
Definition fresh_reply (a : trace) (x : Z * obs) : Prop :=
  match snd x with
  | ORet t (RMsg m) => exists a1 n0 c a2 n1 bs, a = a1 ++ (n0, OCall t c) :: a2 /\ wants c = Some (hid m) /\ In (n1, ORecv bs) a2 /\ brings bs m
  | _ => True
  end.
Lemma step_fresh s tr e s' os : good s tr -> always meaning tr -> kinds s -> winv (c_w s) (c_tasks s) tr -> step s e = Some (s', os) -> forall a x b, stamp (c_now s) os = a ++ x :: b -> fresh_reply (tr ++ a) x.
Proof.
  intros G AM K I ST a x b E. unfold fresh_reply. destruct x as [n o]. cbn [snd]. destruct o as [| | | | | | |t [|m|]]; try exact Logic.I.
  assert (J : In (ORet t (RMsg m)) os).
  { assert (J : In (n, ORet t (RMsg m)) (stamp (c_now s) os)) by (rewrite E; apply in_or_app; right; left; reflexivity). apply in_map_iff in J as (o & E' & J). injection E' as _ ->. exact J. }
  destruct (good_case _ _ _ _ _ G ST); subst; cbn in J; try contradiction.
  all: repeat match goal with H : _ \/ _ |- _ => destruct H as [H|H]; try discriminate; try contradiction end.
  - apply in_app_iff in J as [J|[J|[]]]; [unfold conn_send in J; destruct (c_up s); [destruct J as [J|[]]|contradiction]|]; discriminate.
  - unfold conn_send in J; destruct (c_up s); [destruct J as [J|[]]|contradiction]; discriminate.
  - destruct (packet_frame_of _ _ _ _ _ G H0 H1) as (_ & _ & PO). rewrite Forall_forall in PO. elim (PO _ J).
  - injection J as -> ->. destruct a as [|? [|]]; try discriminate. cbn [stamp map] in E. injection E as _ _. rewrite app_nil_r.
    destruct (wi_fresh _ _ _ I _ _ _ _ _ H eq_refl H1) as (n1 & bs & SI & BR). destruct SI as (a1 & n0 & c1 & a2 & -> & J).
    destruct (wi_hf _ _ _ I) as (hf & _ & _ & A2 & A3). pose proof (A2 _ _ _ _ H eq_refl) as X1. pose proof (A3 _ _ H1) as X2.
    destruct G as (IA & _). destruct (ia_born _ _ _ _ _ IA _ _ H) as (n2 & k & (b1 & b2 & EB & _)). destruct (split_unique _ AM _ _ _ _ _ _ _ _ _ eq_refl EB) as (-> & -> & EC & ->). cbn in EC. subst c1.
    exists b1, n2, c, b2, n1, bs. split; [reflexivity|]. split; [|auto]. pose proof (K _ _ _ H) as KK. cbn in KK. destruct c; cbn; congruence || contradiction.
  - unfold conn_send in J; destruct (c_up s); [destruct J as [J|[]]|contradiction]; discriminate.
Qed.
Lemma reply_fresh es s tr : exec conn0 es s tr -> always fresh_reply tr.
Proof.
  induction 1 as [|es s tr e s' os X IH ST]; [apply always_nil|]. apply always_app; [exact IH|]. destruct (exec_good _ _ _ X) as [G A].
  eapply step_fresh; [exact G|exact A|exact (exec_kinds _ _ _ X)|exact (exec_winv _ _ _ X)|exact ST].
Qed.

(** ** C37 *)
Definition clean_end (tr : trace) (h : Z) : Prop := forall t c n k, born tr t c n k -> wants c = Some h ->
  sane c /\ exists r, ended tr t r /\ (sending c = true -> (exists m, r = RMsg m) \/ r = RExc ETimeout).
Lemma no_session es s tr h : exec conn0 es s tr -> clean_end tr h -> dget Z.eqb h (w_sess (c_w s)) = None.
Proof.
  intros X CE. destruct (dget Z.eqb h (w_sess (c_w s))) as [f|] eqn:D; [exfalso|reflexivity]. apply dget_in in D. destruct (wi_hold _ _ _ (exec_winv _ _ _ X) _ _ D) as (t & [c p] & E & W & HP). cbn in W, HP.
  destruct (exec_good _ _ _ X) as [(IA & _) _]. destruct (ia_born _ _ _ _ _ IA _ _ E) as (n & k & B). cbn in B. destruct (CE _ _ _ _ B W) as (SA & r & (n' & J) & R).
  destruct (proj2 (exec_owners _ _ _ X) _ _ _ J) as (c' & E'). rewrite E in E'. injection E' as <- ->.
  destruct r as [|m|e]; [exact HP|exact HP|]. destruct c; try exact HP. destruct (R eq_refl) as [(m & Y)|Y]; [discriminate|]. injection Y as ->.
  destruct HP as [HP|(sq & SQ & B')]; [elim HP; reflexivity|]. destruct (SA _ _ _ eq_refl) as (H1 & H2 & b & EN). destruct (send_bytes_ok sq sep dep cmd b SQ H1 H2 EN) as (cbs & _ & _ & _ & C4). congruence.
Qed.
Lemma bytes_forallb bs : bytes_ok bs -> forallb is_byte bs = true.
Proof. intros B. apply forallb_forall. intros x J. unfold bytes_ok in B. rewrite Forall_forall in B. specialize (B x J). unfold is_byte. lia. Qed.
Lemma set_w_same s : set_w (c_w s) s = s. Proof. destruct s; reflexivity. Qed.
Lemma heard es s tr h bs m : exec conn0 es s tr -> In EvConnect es -> clean_end tr h -> bytes_ok bs -> brings bs m -> hid m = h ->
  exists v, decode bs = Ok v /\ step s (EvPacket bs) = Some (s, [ORecv bs; OHeard v; OHandled true]).
Proof.
  intros X UP CE B BR HM. apply (exec_up _ _ _ X) in UP. pose proof (no_session _ _ _ _ X CE) as D. cbn [step]. rewrite UP, (bytes_forallb _ B). cbn [andb].
  destruct (on_packet bs s) as [s' os] eqn:E. destruct (on_packet_wait _ _ _ _ B E) as [(m' & v & w & r & BR' & DE & MR & -> & ->)|(_ & NB & _)]; [|elim (NB _ BR)].
  pose proof (brings_fun _ _ _ BR' BR) as ->. exists v. split; [exact DE|]. unfold message_received in MR.
  destruct m; try (destruct BR as [(? & ? & ? & _ & Y & _)|(? & Y & _)]; discriminate Y). rewrite HM, D in MR. injection MR as <- <-. rewrite set_w_same. reflexivity.
Qed.

(** ** C30 *)
Lemma undecodable s bs : c_up s = true -> bytes_ok bs -> (forall m, decode bs <> Ok m) -> step s (EvPacket bs) = Some (s, [ORecv bs; OHandled false]).
Proof. intros UP B D. cbn [step]. rewrite UP, (bytes_forallb _ B). cbn [andb]. unfold on_packet. destruct (decode bs) eqn:E; [elim (D _ eq_refl)|reflexivity]. Qed.

(** ** C31, C32 *)
Definition gives_up (s : conn) (h : Z) : Prop := exists t c f, (exists dl, nth_error (c_tasks s) t = Some (mkT c (PWait h f dl PhExpiring))) \/ nth_error (c_tasks s) t = Some (mkT c (PCancel h f)).
Lemma quits_gives_up s t x h f : nth_error (c_tasks s) t = Some x -> quits x h f -> gives_up s h.
Proof.
  intros E Q. destruct x as [c p]. unfold quits in Q. cbn in Q. destruct p as [|h' f' dl []|h' f'|]; try contradiction; destruct Q as [-> ->]; exists t, c, f; eauto.
Qed.
Lemma ack_packet_error bs d s s' e : decode bs = Ok (VObj (CMsg m_Zip_ZipPacket) d) -> bytes_ok bs -> ack_packet (VObj (CMsg m_Zip_ZipPacket) d) s = (s', Err e) ->
  zip_bit bs 5 /\ zip_bit bs 4 /\ forall q x, ~ announces bs q x.
Proof.
  intros D B E. destruct (zip_decoded _ _ B D). unfold ack_packet in E. destruct (_ && _) eqn:NN.
  - apply andb_prop in NN as [N1 N2]. destruct (match to_int _ with Ok q => _ | Err _ => None end) as [[q i]|]; [|discriminate].
    destruct (expected_delay _) as [x|] eqn:ED; [discriminate|]. split; [apply zv_nack; exact N1|]. split; [apply zv_wait; exact N2|].
    intros q' x (_ & _ & _ & attrs & l & D' & AG & T). rewrite D in D'. injection D' as <-. unfold getattr in ED. rewrite AG in ED. cbn [expected_delay] in ED. destruct (dget Z.eqb 1 l); congruence.
  - destruct (match to_int _ with Ok q => _ | Err _ => None end) as [[q i]|]; discriminate.
Qed.

Lemma packet_error es s tr bs s' os e : exec conn0 es s tr -> step s (EvPacket bs) = Some (s', os) -> In (OErr e) os ->
  (zip_bit bs 5 /\ zip_bit bs 4 /\ forall q x, ~ announces bs q x) \/
  (exists d, decode bs = Ok (VObj (CMsg m_Zip_ZipPacket) d) /\ flag d "zwCmdIncluded" = true /\ forall c a, aget "command" d <> Some (VObj c a)) \/
  (exists m, brings bs m /\ gives_up s (hid m)).
Proof.
  intros X ST J. destruct (exec_good _ _ _ X) as [G _]. destruct (packet_step _ _ _ _ ST) as (_ & B & os0 & -> & E). destruct J as [J|J]; [discriminate|].
  destruct (on_packet_wait _ _ _ _ B E) as [(m & v & w & r & BR & _ & MR & -> & ->)|(_ & NB & _)].
  - right. right. exists m. split; [exact BR|]. destruct r as [[]|]; try (cbn in J; intuition discriminate). unfold message_received in MR.
    destruct m; try (destruct BR as [(? & ? & ? & _ & Y & _)|(? & Y & _)]; discriminate Y). set (m := VObj c attrs) in *.
    destruct (dget Z.eqb (hid m) (w_sess (c_w s))) as [f|] eqn:D; [|discriminate]. pose proof (exec_winv _ _ _ X) as I. apply dget_in in D.
    destruct (nth_error (w_futs (c_w s)) f) as [[]|] eqn:N; try discriminate.
    + elim (wi_open _ _ _ I _ _ _ D N).
    + destruct (wi_quit _ _ _ I _ _ D N) as (t & x & E' & Q). eapply quits_gives_up; eassumption.
    + pose proof (winv_bound _ _ _ _ _ I D). apply nth_error_None in N. lia.
  - unfold on_packet in E. destruct (decode bs) as [v|] eqn:D; [|injection E as <- <-; cbn in J; intuition discriminate].
    destruct (is_msg m_Zip_ZipPacket v) eqn:Z.
    + destruct (is_msg_true m_Zip_ZipPacket v bs zip_in B D Z) as (d & ->). pose proof (zip_decoded _ _ B D) as ZV. set (v := VObj (CMsg m_Zip_ZipPacket) d) in *.
      assert (F : truthy (getattr v "zwCmdIncluded") = flag d "zwCmdIncluded") by (apply (zv_flag _ _ ZV); cbn; tauto).
      assert (F1 : truthy (getattr v "ackResponse") = flag d "ackResponse") by (apply (zv_flag _ _ ZV); cbn; tauto).
      assert (F2 : truthy (getattr v "nackResponse") = flag d "nackResponse") by (apply (zv_flag _ _ ZV); cbn; tauto).
      assert (F3 : truthy (getattr v "ackRequest") = flag d "ackRequest") by (apply (zv_flag _ _ ZV); cbn; tauto).
      assert (AK : (let (s0, r) := ack_packet v s in (s0, [match r with Ok _ => OHandled true | Err e => OErr e end])) = (s', os0) -> zip_bit bs 5 /\ zip_bit bs 4 /\ forall q x, ~ announces bs q x).
      { intros E'. destruct (ack_packet v s) as [s1 r] eqn:AP. injection E' as <- <-. destruct J as [J|[]]. destruct r; [discriminate|]. exact (ack_packet_error _ _ _ _ _ D B AP). }
      destruct (truthy (getattr v "ackResponse")); [left; exact (AK E)|]. destruct (truthy (getattr v "nackResponse")).
      { destruct (truthy (getattr v "nackWaiting")); [left; exact (AK E)|]. injection E as <- <-. cbn in J; intuition discriminate. }
      destruct (truthy (getattr v "ackRequest")); [injection E as <- <-; cbn in J; intuition discriminate|].
      destruct (truthy (getattr v "zwCmdIncluded")); [|injection E as <- <-; cbn in J; intuition discriminate]. right. left. exists d. split; [reflexivity|]. split; [congruence|].
      intros c a AG. apply (NB (VObj c a)). left. exists d, c, a. split; [exact D|]. repeat (split; [congruence || reflexivity|]). exact AG.
    + destruct (is_msg m_Zip_ZipKeepAlive v); [injection E as <- <-; cbn in J; intuition discriminate|]. destruct (is_msg m_ZipND_ZipNodeAdvertisement v) eqn:ZN; [|injection E as <- <-; cbn in J; intuition discriminate].
      destruct (is_msg_true _ v bs adv_in B D ZN) as (d & ->). elim (NB (VObj (CMsg m_ZipND_ZipNodeAdvertisement) d)). right. eauto.
Qed.

(** where a datagram goes *)
Lemma destination es s tr bs s' os : exec conn0 es s tr -> step s (EvPacket bs) = Some (s', os) ->
  (* brings no message: nobody hears of it, waiting callers are unaffected *)
  ((forall m, ~ brings bs m) /\ (forall v, ~ In (OHeard v) os) /\ c_w s' = c_w s) \/
  (exists m, brings bs m /\
    ((* no session: announced once, nothing changes *)
     (dget Z.eqb (hid m) (w_sess (c_w s)) = None /\ s' = s /\ exists v, decode bs = Ok v /\ os = [ORecv bs; OHeard v; OHandled true]) \/
     (* a session: its future gets the message, every call waiting on it will return it, and it is not announced *)
     (exists f, dget Z.eqb (hid m) (w_sess (c_w s)) = Some f /\ os = [ORecv bs; OHandled true] /\ dget Z.eqb (hid m) (w_sess (c_w s')) = None /\ c_tasks s' = c_tasks s /\
        (forall g, nth_error (w_futs (c_w s')) g = if Nat.eqb g f then Some (FDone m) else nth_error (w_futs (c_w s)) g) /\
        exists t c p, nth_error (c_tasks s) t = Some (mkT c p) /\ wants c = Some (hid m)) \/
     (* the future was just cancelled by a call that gives up *)
     (gives_up s (hid m) /\ os = [ORecv bs; OErr EInvalidState]))).
Proof.
  intros X ST. destruct (packet_step _ _ _ _ ST) as (_ & B & os0 & -> & E).
  destruct (on_packet_wait _ _ _ _ B E) as [(m & v & w & r & BR & D & MR & -> & ->)|(W & NB & o & -> & SI)].
  - right. exists m. split; [exact BR|]. unfold message_received in MR.
    destruct m; try (destruct BR as [(? & ? & ? & _ & Y & _)|(? & Y & _)]; discriminate Y). set (m := VObj c attrs) in *. pose proof (exec_winv _ _ _ X) as I.
    destruct (dget Z.eqb (hid m) (w_sess (c_w s))) as [f|] eqn:DG.
    + pose proof (dget_in _ _ _ DG) as J. pose proof (winv_bound _ _ _ _ _ I J) as L. destruct (nth_error (w_futs (c_w s)) f) as [[]|] eqn:N.
      * injection MR as <- <-. right. left. exists f. split; [reflexivity|]. split; [reflexivity|]. split; [apply dget_ddel_same|]. split; [reflexivity|]. split.
        -- intros g. cbn [c_w set_w set_fut w_futs pop_sess]. rewrite nth_upd, Nat.eqb_sym. destruct (Nat.eqb_spec g f) as [->|]; [rewrite N|]; reflexivity.
        -- destruct (wi_hold _ _ _ I _ _ J) as (t & [c0 p] & E' & W & _). eauto.
      * elim (wi_open _ _ _ I _ _ _ J N).
      * injection MR as <- <-. right. right. split; [|reflexivity]. destruct (wi_quit _ _ _ I _ _ J N) as (t & x & E' & Q). eapply quits_gives_up; eassumption.
      * apply nth_error_None in N. lia.
    + injection MR as <- <-. left. split; [reflexivity|]. split; [apply set_w_same|]. eauto.
  - left. split; [exact NB|]. split; [|exact W]. intros v [J|[J|[]]]; [discriminate|]. subst o. exact SI.
Qed.

(** ** C33 *)
Lemma last_tx_app n a b : last_tx n (a ++ b) = last_tx (last_tx n a) b.
Proof. apply fold_left_app. Qed.
Lemma last_tx_quiet n m os : (forall o, In o os -> writes o = false) -> last_tx n (stamp m os) = n.
Proof. revert n. induction os as [|o os IH]; intros n Q; [reflexivity|]. cbn. rewrite (Q o (or_introl eq_refl)). apply IH. intros o' J. apply Q. right. exact J. Qed.
Lemma ka_exec es1 s1 tr1 s2 os es2 s3 tr3 : exec conn0 es1 s1 tr1 -> step s1 EvConnect = Some (s2, os) -> exec s2 es2 s3 tr3 -> ~ In EvConnect es2 ->
  c_up s3 = true /\ c_ka s3 = Some (last_tx (c_now s1) tr3 + 25000) /\ exec conn0 ((es1 ++ [EvConnect]) ++ es2) s3 ((tr1 ++ stamp (c_now s1) os) ++ tr3).
Proof.
  intros X ST X2. pose proof (X_snoc _ _ _ _ _ _ _ X ST) as X1. induction X2 as [|es s tr e s' os' X2 IH ST']; intros NC.
  - rewrite !app_nil_r. cbn in ST. injection ST as <- <-. cbn. repeat (split; [reflexivity|]). exact X1.
  - destruct IH as (UP & KA & XX); [intros J; apply NC; apply in_or_app; left; exact J|]. destruct (exec_good _ _ _ XX) as [G _].
    assert (NE : e <> EvConnect) by (intros ->; apply NC; apply in_or_app; right; left; reflexivity).
    assert (S : c_up s' = true /\ c_ka s' = Some (last_tx (last_tx (c_now s1) tr) (stamp (c_now s) os') + 25000)).
    { destruct (good_case _ _ _ _ _ G ST'); subst; cbn [c_up c_ka set_task s_num set_w set_seq s_new reset_ka add_ack set_ack set_ackq]; try (split; [assumption|]).
      all: try (elim NE; reflexivity). all: unfold conn_send; rewrite ?UP; try (cbn; rewrite ?KA; reflexivity).
      destruct (packet_frame_of _ _ _ _ _ G H0 H1) as (_ & [P1 P2 P3 _ _] & PO). rewrite P2, P3. split; [exact UP|]. rewrite KA. rewrite last_tx_quiet; [reflexivity|].
      intros o [<-|J]; [reflexivity|]. rewrite Forall_forall in PO. specialize (PO _ J). destruct o; try reflexivity. contradiction. }
    destruct S as [S1 S2]. rewrite last_tx_app. split; [exact S1|]. split; [exact S2|]. rewrite !app_assoc. eapply X_snoc; [|exact ST']. rewrite <- !app_assoc in *. exact XX.
Qed.
Lemma punctual_run s0 es s tr : punctual_exec s0 es s tr -> exec s0 es s tr.
Proof. induction 1; [constructor|econstructor; eassumption]. Qed.
Lemma ka_punctual es1 s1 tr1 s2 os es2 s3 tr3 : exec conn0 es1 s1 tr1 -> step s1 EvConnect = Some (s2, os) -> punctual_exec s2 es2 s3 tr3 -> ~ In EvConnect es2 -> c_now s3 <= last_tx (c_now s1) tr3 + 25000.
Proof.
  intros X ST X2. induction X2 as [|es s tr e s' os' X2 IH ST' PU]; intros NC.
  - cbn in ST. injection ST as <- <-. cbn. lia.
  - assert (NC' : ~ In EvConnect es) by (intros J; apply NC; apply in_or_app; left; exact J). specialize (IH NC').
    destruct (ka_exec _ _ _ _ _ _ _ _ X ST (punctual_run _ _ _ _ X2) NC') as (UP & KA & XX). destruct (exec_good _ _ _ XX) as [G _]. rewrite last_tx_app.
    assert (LE : last_tx (c_now s1) tr <= last_tx (last_tx (c_now s1) tr) (stamp (c_now s) os') \/ c_now s <= last_tx (last_tx (c_now s1) tr) (stamp (c_now s) os')).
    { generalize (last_tx (c_now s1) tr). clear. intros n. assert (Q : forall k, k = n \/ k = c_now s -> last_tx k (stamp (c_now s) os') = n \/ last_tx k (stamp (c_now s) os') = c_now s).
      { induction os' as [|o os IH]; intros k K; [exact K|]. cbn. destruct (writes o); apply IH; auto. }
      destruct (Q n (or_introl eq_refl)) as [->| ->]; lia. }
    assert (ADV : c_now s' <= c_now s \/ (c_now s' <= last_tx (c_now s1) tr + 25000 /\ os' = [])).
    { destruct (good_case _ _ _ _ _ G ST'); subst; cbn [c_now set_task s_num set_w set_seq s_new reset_ka add_ack set_ack set_ackq]; try (left; lia).
      - right. split; [exact (PU _ _ eq_refl KA)|reflexivity].
      - left. destruct (packet_frame_of _ _ _ _ _ G H0 H1) as (_ & [P1 _ _ _ _] & _). lia. }
    destruct ADV as [ADV|[ADV ->]]; [|exact ADV]. lia.
Qed.
Lemma ka_fires es s tr d : exec conn0 es s tr -> In EvConnect es -> c_ka s = Some d -> d <= c_now s -> exists s', step s EvKeepAlive = Some (s', [OWire None [35; 3; 128]]) /\ c_ka s' = Some (c_now s + 25000).
Proof.
  intros X UP KA L. apply (exec_up _ _ _ X) in UP. cbn [step]. rewrite KA. destruct (Z.leb_spec d (c_now s)); [|lia].
  destruct keep_alive_bytes as (m & -> & ->). unfold conn_send. rewrite UP. eexists. split; reflexivity.
Qed.
