(** Proofs about the order of announcements (C128). *)
From Coq Require Import String ZArith List Bool Lia.
From Verif Require Import Py Schema Registry Codec Waiter Conn SpecConn ConnLemmas ConnAck ConnInv ConnCases ConnProps ConnWait ConnReply Gateway SpecGateway GatewayProofs GatewayLinks GatewayStory GatewayNode SpecRelay.
From Verif Require NodeProofs.
Import ListNotations.
Open Scope list_scope.
Open Scope string_scope.
Open Scope list_scope.
Open Scope Z_scope.

Definition payload_of (v : val) : val := if is_msg m_Zip_ZipPacket v then getattr v "command" else v.
Lemma brings_payload bs m v : brings bs m -> decode bs = Ok v -> payload_of v = m.
Proof.
  intros [(d & c & a & D & -> & _ & _ & _ & _ & C)|(d & -> & D)] E; rewrite D in E; injection E as <-; unfold payload_of.
  - change (is_msg m_Zip_ZipPacket (VObj (CMsg m_Zip_ZipPacket) d)) with true. cbn [getattr]. unfold getattr. cbn. rewrite C. reflexivity.
  - reflexivity.
Qed.
Definition plain (o : obs) : Prop := match o with ORecv _ | OHeard _ => False | _ => True end.
Lemma plain_step evs tr k e k' os : exec conn0 evs k tr -> step k e = Some (k', os) -> (forall bs, e <> EvPacket bs) -> Forall plain os.
Proof.
  intros X ST N. assert (CS : forall t bs s, Forall plain (conn_send t bs s)) by (intros; unfold conn_send; destruct (c_up s); repeat constructor).
  pose proof (good_case _ _ _ _ _ (proj1 (exec_good _ _ _ X)) ST) as K. destruct K; subst; try (elim (N _ eq_refl)); repeat first [apply CS|constructor|apply Forall_app; split].
Qed.
Lemma told_app a b : told (a ++ b) = told a ++ told b. Proof. apply flat_map_app. Qed.
Lemma plain_relays tr ps ks n os : Forall plain os -> relays tr ps ks -> relays (tr ++ stamp n os) ps ks /\ told (stamp n os) = [].
Proof.
  intros F. revert tr. induction F as [|o os P F IH]; intros tr R; [cbn; rewrite app_nil_r; auto|].
  cbn [stamp map]. change ((n, o) :: map (pair n) os) with ([(n, o)] ++ stamp n os). rewrite app_assoc. destruct (IH (tr ++ [(n, o)])) as [A B].
  { apply R_other; [exact R|]. cbn. intros bs ->. exact P. }
  split; [exact A|]. rewrite told_app, B. destruct o; try reflexivity; destruct P.
Qed.
Definition open (w : waiter) (h : Z) : nat := match dget Z.eqb h (w_sess w) with Some _ => 1 | None => 0 end.
Lemma askings_app a b h : askings (a ++ b) h = (askings a h + askings b h)%nat. Proof. unfold askings. rewrite filter_app, app_length. reflexivity. Qed.
Lemma of_id_app a b h : of_id h (a ++ b) = (of_id h a + of_id h b)%nat. Proof. unfold of_id. rewrite filter_app, app_length. reflexivity. Qed.
Lemma open_pop h w k : (open (pop_sess h w) k <= open w k)%nat.
Proof. unfold open. cbn [pop_sess w_sess]. destruct (Z.eq_dec k h) as [->|N]; [rewrite dget_ddel_same; lia|rewrite dget_ddel_other by exact N; lia]. Qed.
Lemma open_add h w f w' k : add_session h w = (f, w') -> (open w' k <= open w k + if (h =? k)%Z then 1 else 0)%nat.
Proof.
  unfold add_session, open. destruct (dget Z.eqb h (w_sess w)) eqn:D; intros [= <- <-]; [destruct (dget Z.eqb k (w_sess w)); lia|]. cbn [w_sess].
  rewrite NodeProofs.dget_dset, Z.eqb_sym. destruct (h =? k); destruct (dget Z.eqb k (w_sess w)); lia.
Qed.
Lemma open_start f tmo w ph w' k : wait_start f tmo w = (ph, w') -> open w' k = open w k.
Proof. unfold wait_start, open, cancel_fut. destruct (0 <? tmo); [intros [= <- <-]; reflexivity|]. destruct (nth_error (w_futs w) f) as [[]|] eqn:E; intros [= <- <-]; rewrite ?E; reflexivity. Qed.
Lemma open_cancel f w k : open (cancel_fut f w) k = open w k.
Proof. unfold open, cancel_fut. destruct (nth_error (w_futs w) f) as [[]|]; reflexivity. Qed.
Lemma open_opens c s ses w k : opens c s = (ses, w) -> (open w k <= open (c_w s) k + askings [(0%Z, OCall 0 c)] k)%nat.
Proof.
  unfold opens. destruct c; [intros [= <- <-]; lia| |]; destruct (add_session h (c_w s)) as [f w1] eqn:A; intros [= <- <-]; pose proof (open_add _ _ _ _ k A) as Q; cbn; destruct (h =? k); cbn; lia.
Qed.
Lemma askings_call n t c os k : (askings [(0%Z, OCall 0 c)] k <= askings (stamp n (OCall t c :: os)) k)%nat.
Proof. unfold askings. cbn. destruct (wants c) as [h|]; [destruct (h =? k)|]; cbn; lia. Qed.
Lemma step_open evs tr k e k' os h : exec conn0 evs k tr -> step k e = Some (k', os) -> (forall bs, e <> EvPacket bs) -> (open (c_w k') h <= open (c_w k) h + askings (stamp (c_now k) os) h)%nat.
Proof.
  intros X ST N. pose proof (good_case _ _ _ _ _ (proj1 (exec_good _ _ _ X)) ST) as K.
  destruct K; subst; try (elim (N _ eq_refl)); cbn [c_w set_task set_pc reset_ka set_w set_ack set_ackq set_seq add_ack s_num s_new];
    repeat match goal with
    | H : opens _ _ = _ |- _ => pose proof (open_opens _ _ _ _ h H); clear H
    | H : wait_start _ _ _ = _ |- _ => rewrite (open_start _ _ _ _ _ h H); clear H
    end; cbn [c_w set_task set_pc reset_ka set_w set_ack set_ackq set_seq add_ack s_num s_new];
    try match goal with |- context [askings (stamp ?n (OCall ?t ?c :: ?o)) ?k] => pose proof (askings_call n t c o k) end; try lia;
    try match goal with |- context [open (pop_sess ?a ?b) ?c] => pose proof (open_pop a b c) end; rewrite ?open_cancel; try lia.
  - pose proof (open_add _ _ _ _ h H) as Q. unfold askings. cbn. destruct (h0 =? h); cbn; lia.
  - unfold open. cbn [set_fut w_sess]. lia.
Qed.
Lemma conn_relays es s tr : exec conn0 es s tr -> exists ps ks, relays tr ps ks /\ map fst ps = told tr /\ (forall p, In p ps -> payload_of (fst p) = snd p) /\ forall h, (of_id h ks + open (c_w s) h <= askings tr h)%nat.
Proof.
  induction 1 as [|es s tr e s' os X (ps & ks & R & T & P & C) ST]; [exists [], []; split; [exact R_none|]; split; [reflexivity|]; split; [intros p []|intros h; apply le_n]|].
  assert (Q : (exists bs, e = EvPacket bs) \/ forall bs, e <> EvPacket bs) by (destruct e; eauto; right; discriminate).
  destruct Q as [(bs & ->)|NP].
  - destruct (packet_step _ _ _ _ ST) as (_ & B & os0 & -> & E).
    cbn [stamp map]. change ((c_now s, ORecv bs) :: map (pair (c_now s)) os0) with ([(c_now s, ORecv bs)] ++ stamp (c_now s) os0). rewrite app_assoc.
    assert (MORE : forall h k, (k <= askings tr h -> k <= askings ((tr ++ [(c_now s, ORecv bs)]) ++ stamp (c_now s) os0) h)%nat) by (intros h k; rewrite !askings_app; lia).
    destruct (on_packet_wait _ _ _ _ B E) as [(m & v & w & r & BR & D & MR & -> & ->)|(W & NB & o & -> & SI)].
    + unfold message_received in MR. destruct m; try (destruct BR as [(? & ? & ? & _ & Y & _)|(? & Y & _)]; discriminate Y). set (m := VObj c attrs) in *.
      destruct (dget Z.eqb (hid m) (w_sess (c_w s))) as [f|] eqn:DG.
      * assert (W : w_sess w = w_sess (pop_sess (hid m) (c_w s)) /\ r <> Ok false) by (destruct (nth_error (w_futs (c_w s)) f) as [[]|]; injection MR as <- <-; split; try reflexivity; discriminate). destruct W as [W NR].
        pose proof (C (hid m)) as CH. unfold open in CH. rewrite DG in CH.
        exists ps, (ks ++ [m]). destruct (plain_relays (tr ++ [(c_now s, ORecv bs)]) ps (ks ++ [m]) (c_now s) (match r with Ok true => [OHandled true] | Ok false => [OHeard v; OHandled true] | Err e => [OErr e] end)) as [R2 T2].
        { destruct r as [[]|]; [repeat constructor|congruence|repeat constructor]. }
        { eapply R_kept; [exact R|exact BR|lia]. }
        split; [exact R2|]. split; [rewrite !told_app, T2, T, app_nil_r; cbn; rewrite app_nil_r; reflexivity|]. split; [exact P|].
        intros h. apply MORE. rewrite of_id_app. unfold open. cbn [c_w set_w]. rewrite W. cbn [pop_sess w_sess]. unfold of_id at 2. cbn [filter]. destruct (Z.eqb_spec (hid m) h) as [<-|N].
        -- rewrite dget_ddel_same. cbn [length]. lia.
        -- rewrite dget_ddel_other by congruence. specialize (C h). unfold open in C. cbn [length]. lia.
      * injection MR as <- <-. exists (ps ++ [(v, m)]), ks. assert (R2 : relays (tr ++ [(c_now s, ORecv bs)]) (ps ++ [(v, m)]) ks) by (eapply R_told; eassumption).
        split.
        { cbn [stamp map]. change ([(c_now s, OHeard v); (c_now s, OHandled true)]) with ([(c_now s, OHeard v)] ++ [(c_now s, OHandled true)]). rewrite app_assoc. do 2 (apply R_other; [|discriminate]). exact R2. }
        split; [rewrite !told_app, map_app, T; cbn; rewrite app_nil_r; reflexivity|]. split; [|intros h; apply MORE; exact (C h)]. intros p J. apply in_app_or in J as [J|[<-|[]]]; [exact (P _ J)|]. exact (brings_payload _ _ _ BR D).
    + exists ps, ks. split; [apply R_other; [apply R_empty; assumption|destruct o; try discriminate; destruct SI]|]. split; [rewrite !told_app, T; destruct o; try destruct SI; cbn; rewrite ?app_nil_r; reflexivity|]. split; [exact P|].
      intros h. apply MORE. rewrite W. exact (C h).
  - exists ps, ks. destruct (plain_relays tr ps ks (c_now s) os (plain_step _ _ _ _ _ _ X ST NP) R) as [R2 T2]. split; [exact R2|]. split; [rewrite told_app, T2, app_nil_r; exact T|]. split; [exact P|].
    intros h. rewrite askings_app. pose proof (step_open _ _ _ _ _ _ h X ST NP) as Q. specialize (C h). lia.
Qed.
Lemma conn_order es s tr : exec conn0 es s tr -> exists ps ks, relays tr ps ks /\ map fst ps = told tr.
Proof. intros X. destruct (conn_relays _ _ _ X) as (ps & ks & A & B & _). eauto. Qed.
(** nobody ever waits: all of them *)
Lemma count_all tr ps ks : relays tr ps ks -> (forall h, askings tr h = 0%nat) -> ks = [] /\ forall n bs m, In (n, ORecv bs) tr -> brings bs m -> exists v, In (v, m) ps /\ decode bs = Ok v.
Proof.
  induction 1 as [|tr ps ks x R IH N|tr ps ks n bs R IH N|tr ps ks n bs m R IH B A|tr ps ks n bs m v R IH B D]; intros NA.
  1: split; [reflexivity|intros n bs m []].
  all: assert (NA' : forall h, askings tr h = 0%nat) by (intros h; specialize (NA h); rewrite askings_app in NA; lia); destruct (IH NA') as [K G].
  - split; [exact K|]. intros n bs m J BR. apply in_app_or in J as [J|[->|[]]]; [exact (G _ _ _ J BR)|]. elim (N bs). reflexivity.
  - split; [exact K|]. intros n0 bs0 m J BR. apply in_app_or in J as [J|[J|[]]]; [exact (G _ _ _ J BR)|]. injection J as <- <-. elim (N m BR).
  - exfalso. rewrite NA' in A. lia.
  - split; [exact K|]. intros n0 bs0 m0 J BR. apply in_app_or in J as [J|[J|[]]].
    + destruct (G _ _ _ J BR) as (v0 & Q & D0). exists v0. split; [apply in_or_app; auto|exact D0].
    + injection J as <- <-. pose proof (brings_fun _ _ _ B BR) as <-. exists v. split; [apply in_or_app; right; left; reflexivity|exact D].
Qed.

(** ** At the gateway *)
Definition fits (os : list gobs) : Prop := forall l n, passed l (gstamp n os) = map payload_of (told (on_link (Some l) (gstamp n os))).
Lemma passed_app l a b : passed l (a ++ b) = passed l a ++ passed l b. Proof. apply flat_map_app. Qed.
Lemma fits_app a b : fits a -> fits b -> fits (a ++ b).
Proof. intros A B l n. rewrite gstamp_app, passed_app, on_link_app, told_app, map_app, A, B. reflexivity. Qed.
Definition mute (o : gobs) : Prop := match o with GAt _ o => forall v, o <> OHeard v | GTold (Some _) _ _ _ _ | GLost (Some _) _ => False | _ => True end.
Lemma fits_one o : mute o -> fits [o].
Proof.
  intros M l n. destruct o as [l0 o| | | | | | | | | | | | |]; try (destruct l0; [destruct M|reflexivity]); try (destruct from; [destruct M|reflexivity]); try reflexivity.
  unfold passed, on_link. cbn [gstamp map flat_map snd app]. destruct (same_link (Some l) l0); [|reflexivity]. destruct o; try reflexivity. elim (M _ eq_refl).
Qed.
Lemma fits_mute os : Forall mute os -> fits os.
Proof. induction 1 as [|o os H _ IH]; [intros l n; reflexivity|]. exact (fits_app [o] os (fits_one _ H) IH). Qed.
Lemma fits_lift l d o : fits (lift l d o).
Proof.
  destruct l as [i|]; [|destruct o; try (apply fits_one; cbn; discriminate)].
  - destruct o; try (apply fits_one; cbn; discriminate). intros l n. unfold lift, heard. cbn [gstamp map passed flat_map on_link snd].
    fold (payload_of v). destruct (node_of i (d_conns d)); cbn [snd app same_link]; rewrite Nat.eqb_sym; destruct (Nat.eqb l i); reflexivity.
  - intros l n. reflexivity.
Qed.
Lemma fits_lifts l d os : fits (flat_map (lift l d) os).
Proof. induction os as [|o os IH]; [intros ? ?; reflexivity|]. cbn [flat_map]. apply fits_app; [apply fits_lift|exact IH]. Qed.
Section Gw.
Variable ord : list Z -> list Z.
Lemma ours_mute t os : Forall (ours t) os -> Forall mute os.
Proof. apply Forall_impl. intros o. destruct o; cbn; auto; contradiction. Qed.
Lemma wake_fits t w r fs s s2 os2 : wake ord t w r fs s = (s2, os2) -> fits os2.
Proof.
  unfold wake. destruct (unwind ord t r fs (g_d s)) as [[d os] a] eqn:U. intros [= <- <-]. apply fits_mute. constructor; [exact I|]. apply Forall_app. split; [exact (ours_mute _ _ (unwind_ours _ _ _ _ _ _ _ _ U))|]. destruct a; repeat constructor.
Qed.
Lemma spawn_fits c s s2 os2 : spawn ord c s = (s2, os2) -> fits os2.
Proof.
  unfold spawn. destruct (start ord _ c (g_d s)) as [[d os] a] eqn:U. intros [= <- <-]. apply fits_mute. constructor; [exact I|]. apply Forall_app. split; [exact (ours_mute _ _ (start_ours _ _ _ _ _ _ _ U))|]. destruct a; repeat constructor.
Qed.
Lemma step_fits s e s' os : gstep ord s e = Some (s', os) -> fits os.
Proof.
  destruct e as [dt|c|l e|t r|bs addr]; cbn [gstep].
  - destruct (0 <=? dt); [|discriminate]. intros [= <- <-]. intros ? ?; reflexivity.
  - intros H. assert (Q : Some (spawn ord c s) = Some (s', os)) by (destruct c; try discriminate H; exact H). assert (Q1 : spawn ord c s = (s', os)) by congruence. exact (spawn_fits _ _ _ _ Q1).
  - intros H. assert (Q : match conn_at l (g_d s) with None => None | Some k => match step k e with None => None | Some (k', os) =>
        match returned os with None => Some (mkG (set_conn l k' (g_d s)) (g_tasks s), flat_map (lift l (g_d s)) os)
        | Some (u, r) => match waiter_of l u 0 (g_tasks s) with None => Some (mkG (set_conn l k' (g_d s)) (g_tasks s), flat_map (lift l (g_d s)) os)
          | Some (t, fs) => let (s2, os2) := wake ord t (AwCall l u) (of_result r) fs (mkG (set_conn l k' (g_d s)) (g_tasks s)) in Some (s2, flat_map (lift l (g_d s)) os ++ os2) end end end end = Some (s', os))
      by (destruct e; try discriminate H; exact H). clear H.
    destruct (conn_at l (g_d s)) as [k|]; [|discriminate]. destruct (step k e) as [[k' os0]|]; [|discriminate]. destruct (returned os0) as [[u r]|]; [|injection Q as <- <-; apply fits_lifts].
    destruct (waiter_of l u 0 (g_tasks s)) as [[t fs]|]; [|injection Q as <- <-; apply fits_lifts]. destruct (wake _ _ _ _ _ _) as [s2 os2] eqn:W. injection Q as <- <-. apply fits_app; [apply fits_lifts|exact (wake_fits _ _ _ _ _ _ _ W)].
  - destruct (nth_error (g_tasks s) t) as [[c [w fs|r0]]|]; try discriminate. destruct w as [l u|l|]; try discriminate.
    + destruct (conn_at l (g_d s)); [|discriminate]. intros H. injection H as E. exact (wake_fits _ _ _ _ _ _ _ E).
    + intros H. injection H as E. exact (wake_fits _ _ _ _ _ _ _ E).
  - destruct (forallb is_byte bs); [|discriminate]. assert (Q : fits (GPacket bs addr :: fst (unsolicited bs addr (g_d s)))).
    { apply fits_mute. constructor; [exact I|]. unfold unsolicited. destruct (decode bs) as [m|ex]; [|repeat constructor]. destruct addr as [a|]; [|repeat constructor].
      destruct (is_msg _ _); [constructor|]. destruct (from_ip _ _) as [n|]; [|repeat constructor]. destruct (truthy _); [|repeat constructor].
      destruct (is_msg _ _); [|repeat constructor]. destruct (zip_response _ _ _ _ _) as [z|ex]; cbn [bind]; [destruct (compose z)|]; repeat constructor. }
    destruct (unsolicited bs addr (g_d s)) as [os1 [v|]]; cbn [fst] in Q.
    + destruct (spawn ord (GReport v) s) as [s2 os2] eqn:W. intros [= <- <-]. exact (fits_app _ _ Q (spawn_fits _ _ _ _ W)).
    + intros [= <- <-]. exact Q.
Qed.
Lemma gw_fits es s tr l : gexec ord gw0 es s tr -> passed l tr = map payload_of (told (on_link (Some l) tr)).
Proof.
  induction 1 as [|es s tr e s' os X IH ST]; [reflexivity|]. rewrite passed_app, on_link_app, told_app, map_app, IH, (step_fits _ _ _ _ ST). reflexivity.
Qed.
Lemma gw_order es s tr l : gexec ord gw0 es s tr -> exists ps ks, relays (on_link (Some l) tr) ps ks /\ map snd ps = passed l tr.
Proof.
  intros X. destruct (proj2 (exec_linked _ _ _ _ X) (Some l)) as (evs & XL). destruct (conn_relays _ _ _ XL) as (ps & ks & R & T & P & _). exists ps, ks. split; [exact R|].
  rewrite (gw_fits _ _ _ _ X), <- T, map_map. apply map_ext_in. intros p J. symmetry. exact (P _ J).
Qed.
End Gw.
