(** setGatewayMode (C46). *)
From Coq Require Import String ZArith List Bool Lia.
From Verif Require Import Py BitStream Schema Registry Codec SpecBits BitLemmas SpecWire CodecProofs Waiter Conn SpecConn ConnLemmas
  Gateway SpecGateway GatewayProofs GatewayStory.
Import ListNotations.
Open Scope list_scope.
Open Scope string_scope.
Open Scope list_scope.
Open Scope Z_scope.

Definition get_c (tmo : Z) : call := CSendRecv (VObj (CMsg m_ZipGateway_GatewayModeGet) []) 0 0 (s_hid m_ZipGateway_GatewayModeReport) tmo.
Definition set_m (m : Z) : val := VObj (CMsg m_ZipGateway_GatewayModeSet) [("mode", VI false 1 m)].
Definition set_call (m : Z) : call := CSend (set_m m) 0 0 3000.
Lemma get_ok tmo : mode_get tmo (get_c tmo).
Proof. eexists. split; [|reflexivity]. vm_compute. reflexivity. Qed.
Local Ltac same_ty := let a := fresh in let I := fresh in let N := fresh in intros a I N; revert N; cbn in I;
  repeat (destruct I as [<-|I]; [cbn; intros N; first [discriminate N|reflexivity]|]); contradiction I.
Lemma set_ok m : mode_set m (set_call m).
Proof.
  eexists. split; [|reflexivity]. unfold byte. intros B.
  assert (A : args m_ZipGateway_GatewayModeSet [("mode", VInt m)] (s_attrs m_ZipGateway_GatewayModeSet) (nbits 8 m ++ [])).
  { cbn [s_attrs m_ZipGateway_GatewayModeSet]. eapply AR_set; [reflexivity|reflexivity|apply AB_int; cbn; lia|same_ty|]. apply AR_nil. }
  destruct (new_msg_compose m_ZipGateway_GatewayModeSet _ _ ltac:(in_registry) A) as (v & bs & E1 & E2 & B2 & E3). change (Ok (set_m m) = Ok v) in E1. injection E1 as <-. rewrite E2. f_equal.
  apply bits_of_inj; [exact B2|repeat (constructor; [lia|]); constructor|exact E3].
Qed.
Lemma is_mode_spec rep m : is_mode rep m = true <-> mode_of rep = Some m.
Proof.
  unfold is_mode, mode_of. destruct rep; cbn [getattr]; try (split; discriminate). destruct (aget "mode" _) as [x|].
  - destruct x; try (split; discriminate). split; [intros E; apply Z.eqb_eq in E; congruence|intros [= ->]; apply Z.eqb_refl].
  - destruct (find_attr "mode" _) as [[n t p0 c0]|]; [|split; discriminate]. destruct t; cbn; split; discriminate.
Qed.
Lemma timeout_spec {A} e (x y : A) : (if exn_eqb e ETimeout then x else y) = match e with ETimeout => x | _ => y end.
Proof. destruct e; reflexivity. Qed.

Section Mode.
Variable ord : list Z -> list Z.
Definition mode_hist (t : nat) (c : gcall) (p : gpc) (h : list gobs) : Prop :=
  match c with
  | GMode m tmo =>
      match p with
      | GWait w fs =>
          (exists u, w = AwCall None u /\ fs = [FMode m] /\ h = [GCalled t c; GSub t None u (get_c tmo)]) \/
          (exists u u' rep, w = AwCall None u' /\ fs = [FModeSet] /\ mode_of rep <> Some m /\
             h = [GCalled t c; GSub t None u (get_c tmo); GBack t (AwCall None u) (Ok (GV rep)); GSub t None u' (set_call m)])
      | GDone r => exists h', h = GCalled t c :: h' ++ [GRet t r] /\ mode_run t m tmo h' r
      end
  | _ => True
  end.
Lemma mode_story es s tr : gexec ord gw0 es s tr -> forall t c p, nth_error (g_tasks s) t = Some (mkGT c p) -> mode_hist t c p (own t tr).
Proof.
  intros X. refine (proj1 (story ord mode_hist _ _ es s tr X)); clear.
  - intros t c d d' os a S. destruct c; try exact I. cbn [start] in S. unfold start_mode in S. fold (get_c tmo) in S.
    destruct (sub t None (get_c tmo) d) as [[d1 o1] a1] eqn:E. destruct (sub_mine _ _ _ _ _ _ _ E) as [(_ & _ & i & H)|(u & F & [->|(e & -> & _)])]; [discriminate| |]; injection S as <- <- <-; rewrite F; cbn [pc_of said app].
    + left. exists u. auto.
    + cbn [mode_hist]. exists [GSub t None u (get_c tmo)]. split; [reflexivity|]. apply MR_raise. apply get_ok.
  - intros t c w fs r d d' os a h pre H B U. destruct c; try exact I. cbn [mode_hist] in H. destruct H as [(u & -> & -> & ->)|(u & u' & rep & -> & -> & NM & ->)]; cbn [back] in B; destruct B as (r0 & -> & _); cbn [unwind] in U.
    + assert (V : forall v, of_result r0 = Ok v -> exists x, v = GV x) by (intros v; destruct r0; cbn; intros [= <-]; eauto). destruct (of_result r0) as [v|e]; [destruct (V _ eq_refl) as (rep & ->)|]; cbn [frame_step] in U.
      * destruct (is_mode rep mode) eqn:M.
        -- cbn in U. injection U as <- <- <-. cbn [pc_of said filter app mode_hist]. eexists [_; _]. split; [reflexivity|]. apply MR_same; [apply get_ok|apply is_mode_spec; exact M].
        -- assert (NM : mode_of rep <> Some mode) by (rewrite <- is_mode_spec; congruence). clear M.
           change (new_msg m_ZipGateway_GatewayModeSet [("mode", VInt mode)]) with (Ok (set_m mode)) in U. cbv iota in U. fold (set_call mode) in U.
           destruct (sub t None (set_call mode) d) as [[d1 o1] a1] eqn:E. destruct (sub_mine _ _ _ _ _ _ _ E) as [(_ & _ & i & H)|(u' & F & [->|(e & -> & _)])]; [discriminate| |]; cbn in U; injection U as <- <- <-.
           ++ rewrite F. cbn. right. exists u, u', rep. auto.
           ++ rewrite !app_nil_r, F. cbn [pc_of said app mode_hist]. eexists [_; _; _]. split; [reflexivity|]. apply MR_unsent; [apply get_ok|exact NM|apply set_ok].
      * assert (U' : (d, [], ARet (if exn_eqb e ETimeout then Ok (GV (VBool false)) else Err e)) = (d', os, a)) by (rewrite timeout_spec; destruct e; exact U). clear U.
        injection U' as <- <- <-. cbn [pc_of said filter app mode_hist]. eexists [_; _]. split; [reflexivity|]. apply MR_fail. apply get_ok.
    + assert (U' : (d, [], ARet (match of_result r0 with Ok _ => Ok (GV (VBool true)) | Err e => if exn_eqb e ETimeout then Ok (GV (VBool false)) else Err e end)) = (d', os, a)).
      { destruct (of_result r0) as [v|e]; [exact U|]. rewrite timeout_spec. destruct e; exact U. }
      injection U' as <- <- <-. cbn [pc_of said filter app mode_hist]. eexists [_; _; _; _]. split; [reflexivity|]. apply MR_set; [apply get_ok|exact NM|apply set_ok].
Qed.
Lemma mode_result es s tr t m tmo n n' r : gexec ord gw0 es s tr -> In (n, GCalled t (GMode m tmo)) tr -> In (n', GRet t r) tr ->
  exists h, own t tr = GCalled t (GMode m tmo) :: h ++ [GRet t r] /\ mode_run t m tmo h r.
Proof.
  intros X C R. destruct (called_call _ _ _ _ _ _ _ X C) as (p & E). destruct (returned_done _ _ _ _ _ _ _ X R) as (c & E'). rewrite E in E'. injection E' as <- ->.
  exact (mode_story _ _ _ X _ _ _ E).
Qed.
End Mode.
