(** Every connection of a gateway is an execution of Conn.v whose observations are those the gateway's trace has for it. *)
From Coq Require Import String ZArith List Bool Lia.
From Verif Require Import Py Schema Registry Codec Waiter Conn SpecConn ConnLemmas ConnAck ConnInv ConnCases ConnProps ConnCalm ConnCut Gateway SpecGateway GatewayProofs.
Import ListNotations.
Open Scope list_scope.
Open Scope string_scope.
Open Scope list_scope.
Open Scope Z_scope.

Lemma step_now s tr e s' os : good s tr -> step s e = Some (s', os) -> c_now s' = match e with EvAdvance dt => c_now s + dt | _ => c_now s end.
Proof.
  intros G ST. destruct (good_case _ _ _ _ _ G ST); subst; try reflexivity. destruct (packet_frame_of _ _ _ _ _ G H0 H1) as (_ & [P1 _ _ _ _] & _). exact P1.
Qed.
(** a connection that does not exist yet counts as one that only sees time pass *)
Definition cat (l : option nat) (d : gdata) : conn := match conn_at l d with Some k => k | None => new_conn d end.
Definition clocks (d : gdata) : Prop := forall k, In k (d_links d) -> c_now k = c_now (d_c d).
Definition linked (d : gdata) (tr : gtrace) : Prop := clocks d /\ forall l, exists evs, exec conn0 evs (cat l d) (on_link l tr).

Lemma on_link_app l a b : on_link l (a ++ b) = on_link l a ++ on_link l b. Proof. apply flat_map_app. Qed.
Lemma same_link_spec a b : same_link a b = true <-> a = b.
Proof. destruct a, b; cbn; split; try discriminate; try reflexivity; [intros E; apply Nat.eqb_eq in E; congruence|intros E; injection E as ->; apply Nat.eqb_refl]. Qed.
Lemma same_link_refl a : same_link a a = true. Proof. apply same_link_spec. reflexivity. Qed.
Definition off_link (l : option nat) (o : gobs) : Prop := forall l' x, o = GAt l' x -> l' <> l.
Lemma on_link_off l n os : Forall (off_link l) os -> on_link l (gstamp n os) = [].
Proof.
  induction 1 as [|o os H _ IH]; [reflexivity|]. cbn. fold (gstamp n os). fold (on_link l (gstamp n os)). rewrite IH, app_nil_r.
  destruct o; try reflexivity. destruct (same_link l l0) eqn:S; [|reflexivity]. apply same_link_spec in S. subst. elim (H _ _ eq_refl). reflexivity.
Qed.
Lemma on_link_at l n os : on_link l (gstamp n (map (GAt l) os)) = stamp n os.
Proof. induction os as [|o os IH]; [reflexivity|]. cbn. rewrite same_link_refl. cbn. f_equal. exact IH. Qed.
Lemma on_link_other l l' n os : l' <> l -> on_link l (gstamp n (map (GAt l') os)) = [].
Proof. intros NE. apply on_link_off. apply Forall_forall. intros x J. apply in_map_iff in J as (o & <- & _). intros l2 x E. injection E as <- <-. exact NE. Qed.
Lemma gstamp_app n a b : gstamp n (a ++ b) = gstamp n a ++ gstamp n b. Proof. apply map_app. Qed.
Lemma clocks_at d l k : clocks d -> conn_at l d = Some k -> c_now k = c_now (d_c d).
Proof. intros C E. destruct l as [i|]; cbn in E; [exact (C k (nth_error_In _ _ E))|injection E as <-; reflexivity]. Qed.
Lemma cat_now d l : clocks d -> c_now (cat l d) = c_now (d_c d).
Proof. intros C. unfold cat. destruct (conn_at l d) as [k|] eqn:E; [exact (clocks_at _ _ _ C E)|reflexivity]. Qed.
Lemma in_upd {A} i (x : A) l y : In y (upd i x l) -> y = x \/ In y l.
Proof. revert i. induction l as [|z l IH]; intros [|i] J; cbn in *; auto; destruct J as [J|J]; auto. apply IH in J. tauto. Qed.

(** a connection is replaced by one that shows the same time *)
Lemma set_conn_cat d l k k' : conn_at l d = Some k -> clocks d -> c_now k' = c_now k ->
  clocks (set_conn l k' d) /\ cat l (set_conn l k' d) = k' /\ (forall l', l' <> l -> cat l' (set_conn l k' d) = cat l' d) /\ c_now (d_c (set_conn l k' d)) = c_now (d_c d).
Proof.
  intros E C N. pose proof (clocks_at _ _ _ C E) as NK. destruct l as [i|]; cbn in E.
  - split; [|split; [|split]].
    + intros x J. cbn in J. apply in_upd in J as [->|J]; cbn; [congruence|exact (C _ J)].
    + unfold cat. cbn. rewrite (nth_upd_same _ _ _ _ E). reflexivity.
    + intros [j|] NE; unfold cat; cbn; [|reflexivity]. rewrite nth_upd_other by congruence. reflexivity.
    + reflexivity.
  - injection E as <-. split; [|split; [|split]].
    + intros x J. cbn in *. rewrite N. exact (C _ J).
    + reflexivity.
    + intros [j|] NE; [|congruence]. unfold cat, new_conn. cbn. rewrite N. reflexivity.
    + exact N.
Qed.
Lemma linked_step d tr l k e k' os xs n : linked d tr -> conn_at l d = Some k -> step k e = Some (k', os) -> (forall dt, e <> EvAdvance dt) -> n = c_now (d_c d) ->
  on_link l (gstamp n xs) = stamp n os -> (forall l', l' <> l -> on_link l' (gstamp n xs) = []) -> linked (set_conn l k' d) (tr ++ gstamp n xs) /\ c_now (d_c (set_conn l k' d)) = c_now (d_c d).
Proof.
  intros [C X] E ST NA -> O1 O2. destruct (X l) as (evs & XL). assert (CL : cat l d = k) by (unfold cat; rewrite E; reflexivity). rewrite CL in XL.
  destruct (exec_good _ _ _ XL) as [G _]. assert (N : c_now k' = c_now k) by (rewrite (step_now _ _ _ _ _ G ST); destruct e; try reflexivity; elim (NA dt); reflexivity).
  destruct (set_conn_cat _ _ _ _ E C N) as (C' & K1 & K2 & K3). split; [|exact K3]. split; [exact C'|]. intros l'. destruct (same_link l' l) eqn:S.
  - apply same_link_spec in S as ->. exists (evs ++ [e]). rewrite K1, on_link_app, O1, <- (clocks_at _ _ _ C E). econstructor; eassumption.
  - assert (NE : l' <> l) by (intros ->; rewrite same_link_refl in S; discriminate). destruct (X l') as (evs' & X'). exists evs'. rewrite (K2 _ NE), on_link_app, (O2 _ NE), app_nil_r. exact X'.
Qed.
Lemma linked_quiet d tr n os : linked d tr -> (forall l, on_link l (gstamp n os) = []) -> linked d (tr ++ gstamp n os).
Proof. intros [C X] Q. split; [exact C|]. intros l. rewrite on_link_app, Q, app_nil_r. apply X. Qed.
Lemma one_off n o : (forall l x, o <> GAt l x) -> forall l, on_link l (gstamp n [o]) = [].
Proof. intros H l. apply on_link_off. constructor; [|constructor]. intros l' x E. elim (H _ _ E). Qed.
Lemma moves_linked t d os d' : moves t d os d' -> forall tr n, linked d tr -> n = c_now (d_c d) -> linked d' (tr ++ gstamp n os) /\ c_now (d_c d') = c_now (d_c d).
Proof.
  induction 1 as [d|d o d' os H _ IH|d l k c u k' os d' os' E ST U M IH|d n0 a d' os _ IH|d nm ctl nodes conns d' os _ IH]; intros tr n L N.
  - rewrite app_nil_r. auto.
  - change (gstamp n (o :: os)) with (gstamp n [o] ++ gstamp n os). rewrite app_assoc. apply IH; [|exact N]. apply linked_quiet; [exact L|]. apply one_off. intros l x ->. exact H.
  - assert (QS : linked d (tr ++ gstamp n [GSub t l u c])) by (apply linked_quiet; [exact L|]; apply one_off; discriminate).
    destruct (linked_step _ _ _ _ _ _ _ (map (GAt l) os) n QS E ST ltac:(discriminate) N (on_link_at _ _ _) (fun l' NE => on_link_other l' l n os (not_eq_sym NE))) as [L2 N2].
    destruct (IH _ n L2 ltac:(congruence)) as [L3 N3]. split; [|congruence]. change (gstamp n (GSub t l u c :: map (GAt l) os ++ os')) with (gstamp n [GSub t l u c] ++ gstamp n (map (GAt l) os ++ os')).
    rewrite gstamp_app, !app_assoc. exact L3.
  - change (gstamp n (GNew t (length (d_links d)) n0 a :: os)) with (gstamp n [GNew t (length (d_links d)) n0 a] ++ gstamp n os). rewrite app_assoc. apply IH; [|exact N]. apply linked_quiet; [|apply one_off; discriminate].
    destruct L as [C X]. split.
    + intros x J. cbn in J. apply in_app_or in J as [J|[<-|[]]]; [exact (C _ J)|reflexivity].
    + intros l. destruct (X l) as (evs & XL). exists evs. replace (cat l (set_links (d_links d ++ [new_conn d]) d)) with (cat l d); [exact XL|].
      destruct l as [i|]; [|reflexivity]. unfold cat. cbn [conn_at set_links d_links]. rewrite nth_snoc. destruct (Nat.eqb_spec i (length (d_links d))) as [->|]; [|reflexivity].
      rewrite (proj2 (nth_error_None (d_links d) (length (d_links d))) (le_n _)). reflexivity.
  - apply IH; [|exact N]. exact L.
Qed.

Lemma on_link_lift l d n os : on_link l (gstamp n (flat_map (lift l d) os)) = stamp n os /\ forall l', l' <> l -> on_link l' (gstamp n (flat_map (lift l d) os)) = [].
Proof.
  assert (A : forall o, exists x, lift l d o = GAt l o :: x /\ Forall (fun y => forall l' z, y <> GAt l' z) x).
  { intros o. unfold lift. eexists. split; [reflexivity|]. destruct l, o; try constructor; [|constructor]. unfold heard. destruct (node_of _ _); discriminate. }
  induction os as [|o os [IH1 IH2]]; [split; reflexivity|]. cbn [flat_map]. destruct (A o) as (x & -> & Q).
  assert (QX : forall l', on_link l' (gstamp n x) = []) by (intros l'; apply on_link_off; eapply Forall_impl; [|exact Q]; intros y Hy l2 z E; elim (Hy _ _ E)).
  change ((GAt l o :: x) ++ flat_map (lift l d) os) with (map (GAt l) [o] ++ x ++ flat_map (lift l d) os). rewrite !gstamp_app. split.
  - rewrite !on_link_app, on_link_at, QX, IH1. reflexivity.
  - intros l' NE. rewrite !on_link_app, (on_link_other l' l) by congruence. rewrite QX, (IH2 _ NE). reflexivity.
Qed.

Section Links.
Variable ord : list Z -> list Z.
Lemma said_off n t a l : on_link l (gstamp n (said t a)) = [].
Proof. destruct a; cbn [said]; [apply one_off; discriminate|reflexivity]. Qed.
Lemma spawn_linked c s tr n s' os : linked (g_d s) tr -> n = c_now (d_c (g_d s)) -> spawn ord c s = (s', os) -> linked (g_d s') (tr ++ gstamp n os).
Proof.
  intros L N E. destruct (start ord (length (g_tasks s)) c (g_d s)) as [[d o1] a] eqn:S. rewrite (spawn_eq _ _ _ _ _ _ S) in E. injection E as <- <-. cbn [g_d].
  pose proof (good_start ord (length (g_tasks s)) c (g_d s)) as G. rewrite S in G. unfold good_go in G. cbn in G.
  change (gstamp n (GCalled (length (g_tasks s)) c :: o1 ++ said (length (g_tasks s)) a)) with (gstamp n [GCalled (length (g_tasks s)) c] ++ gstamp n (o1 ++ said (length (g_tasks s)) a)).
  rewrite gstamp_app, !app_assoc. apply linked_quiet; [|intros l; apply said_off]. apply (moves_linked _ _ _ _ G); [|exact N]. apply linked_quiet; [exact L|apply one_off; discriminate].
Qed.
Lemma wake_linked t w r fs s tr n s' os : linked (g_d s) tr -> n = c_now (d_c (g_d s)) -> wake ord t w r fs s = (s', os) -> linked (g_d s') (tr ++ gstamp n os).
Proof.
  intros L N E. unfold wake in E. pose proof (good_unwind ord t fs r (g_d s)) as G. destruct (unwind ord t r fs (g_d s)) as [[d o1] a]. injection E as <- <-. cbn [g_d]. unfold good_go in G. cbn in G.
  change (gstamp n (GBack t w r :: o1 ++ said t a)) with (gstamp n [GBack t w r] ++ gstamp n (o1 ++ said t a)).
  rewrite gstamp_app, !app_assoc. apply linked_quiet; [|intros l; apply said_off]. apply (moves_linked _ _ _ _ G); [|exact N]. apply linked_quiet; [exact L|apply one_off; discriminate].
Qed.
Lemma step_linked s e s' os tr : linked (g_d s) tr -> gstep ord s e = Some (s', os) -> linked (g_d s') (tr ++ gstamp (g_now s) os).
Proof.
  intros L ST. unfold g_now. destruct e as [dt|c|l e|t r|bs addr]; cbn [gstep] in ST.
  - destruct (0 <=? dt) eqn:P; [|discriminate]. injection ST as <- <-. rewrite app_nil_r. destruct L as [C X].
    assert (TK : forall k, tick dt k = mkC (c_now k + dt) (c_up k) (c_ka k) (c_seq k) (c_ackq k) (c_acks k) (c_w k) (c_tasks k)) by (intros k; unfold tick; cbn [step]; rewrite P; reflexivity).
    cbn [g_d]. split.
    + intros x J. cbn in J. apply in_map_iff in J as (k & <- & J). cbn [d_c]. rewrite !TK. cbn. rewrite (C _ J). reflexivity.
    + intros l. destruct (X l) as (evs & XL). exists (evs ++ [EvAdvance dt]). replace (on_link l tr) with (on_link l tr ++ stamp (c_now (cat l (g_d s))) []) by apply app_nil_r.
      econstructor; [exact XL|]. cbn [step]. rewrite P. f_equal. f_equal. destruct l as [i|]; unfold cat; cbn [conn_at d_links d_c]; [|symmetry; apply TK].
      rewrite nth_error_map. destruct (nth_error (d_links (g_d s)) i); cbn; [symmetry; apply TK|]. unfold new_conn. cbn [d_c]. rewrite TK. reflexivity.
  - assert (E : Some (spawn ord c s) = Some (s', os)) by (destruct c; try exact ST; discriminate). injection E as E. eapply spawn_linked; eauto.
  - assert (NA : (forall dt, e <> EvAdvance dt) /\ e <> EvConnect) by (split; [intros dt|]; intros ->; discriminate).
    assert (E' : match conn_at l (g_d s) with None => None | Some k => match step k e with None => None | Some (k', os) =>
        match returned os with None => Some (mkG (set_conn l k' (g_d s)) (g_tasks s), flat_map (lift l (g_d s)) os)
        | Some (u, r) => match waiter_of l u 0 (g_tasks s) with None => Some (mkG (set_conn l k' (g_d s)) (g_tasks s), flat_map (lift l (g_d s)) os)
          | Some (t, fs) => let (s2, os2) := wake ord t (AwCall l u) (of_result r) fs (mkG (set_conn l k' (g_d s)) (g_tasks s)) in Some (s2, flat_map (lift l (g_d s)) os ++ os2) end end end end = Some (s', os))
      by (destruct e; try exact ST; discriminate). clear ST. destruct NA as [NA _].
    destruct (conn_at l (g_d s)) as [k|] eqn:K; [|discriminate]. destruct (step k e) as [[k' os0]|] eqn:S; [|discriminate].
    destruct (on_link_lift l (g_d s) (c_now (d_c (g_d s))) os0) as [O1 O2].
    destruct (linked_step _ _ _ _ _ _ _ (flat_map (lift l (g_d s)) os0) _ L K S NA eq_refl O1 O2) as [L1 N1].
    destruct (returned os0) as [[u r]|]; [|injection E' as <- <-; exact L1]. destruct (waiter_of l u 0 (g_tasks s)) as [[t fs]|]; [|injection E' as <- <-; exact L1].
    destruct (wake ord t (AwCall l u) (of_result r) fs _) as [s2 os2] eqn:W. injection E' as <- <-. rewrite gstamp_app, app_assoc. eapply wake_linked; [| |exact W]; [exact L1|exact (eq_sym N1)].
  - destruct (nth_error (g_tasks s) t) as [[c [w fs|x]]|] eqn:N; [|discriminate|discriminate]. destruct w as [l u|l|]; [discriminate| |].
    + destruct (conn_at l (g_d s)) as [k|] eqn:K; [|discriminate]. destruct r as [[]|ex].
      * destruct (step k EvConnect) as [[k' os0]|] eqn:S; [|discriminate]. assert (os0 = []) as -> by (cbn in S; congruence).
        destruct (linked_step _ _ _ _ _ _ _ [] (c_now (d_c (g_d s))) L K S ltac:(discriminate) eq_refl eq_refl (fun _ _ => eq_refl)) as [L1 N1]. rewrite app_nil_r in L1.
        injection ST as W. cbn in S. injection S as <-. eapply wake_linked; [| |exact W]; [exact L1|exact (eq_sym N1)].
      * injection ST as W. eapply wake_linked; [|reflexivity|exact W]. exact L.
    + injection ST as W. eapply wake_linked; [|reflexivity|exact W]. exact L.
  - destruct (forallb is_byte bs); [|discriminate]. assert (Q : forall l, on_link l (gstamp (c_now (d_c (g_d s))) (GPacket bs addr :: fst (unsolicited bs addr (g_d s)))) = []).
    { intros l. apply on_link_off. constructor; [intros ? ? E; discriminate|]. apply Forall_forall. intros x J l' y ->. revert J. unfold unsolicited.
      destruct (decode bs) as [m|ex]; [|intros [J|[]]; discriminate]. destruct addr as [a|]; [|intros [J|[]]; discriminate].
      destruct (is_msg _ _); [intros []|]. destruct (from_ip _ _) as [n|]; [|intros [J|[]]; discriminate]. destruct (truthy _); [|intros [J|[]]; discriminate].
      destruct (is_msg _ _); [|intros [J|[]]; discriminate]. destruct (zip_response _ _ _ _ _) as [z|ex]; cbn [bind]; [destruct (compose z)|]; cbn; intuition discriminate. }
    destruct (unsolicited bs addr (g_d s)) as [os1 [v|]]; cbn [fst] in Q.
    + destruct (spawn ord (GReport v) s) as [s2 os2] eqn:W. injection ST as <- <-.
      change (gstamp (c_now (d_c (g_d s))) (GPacket bs addr :: os1 ++ os2)) with (gstamp (c_now (d_c (g_d s))) ((GPacket bs addr :: os1) ++ os2)). rewrite gstamp_app, app_assoc.
      eapply spawn_linked; [|reflexivity|exact W]. apply linked_quiet; assumption.
    + injection ST as <- <-. apply linked_quiet; assumption.
Qed.
Lemma exec_linked es s tr : gexec ord gw0 es s tr -> linked (g_d s) tr.
Proof.
  induction 1 as [|es s tr e s' os X IH ST]; [|eapply step_linked; eassumption]. split; [intros k []|]. intros l. exists []. destruct l as [[|i]|]; constructor.
Qed.
End Links.
