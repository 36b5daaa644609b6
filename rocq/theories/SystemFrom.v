(** Where what the gateway announces comes from (C108). *)
From Coq Require Import String ZArith List Bool Lia ZifyBool.
From Verif Require Import Py BitStream Schema Registry Codec SpecBits SpecDecode BitLemmas DecodeLemmas DecodeProofs ByteReader HeaderProofs ReportProofs SpecFields Waiter Conn SpecConn ConnLemmas ConnInv ConnCases ConnPacket ConnWait.
From Verif Require Import Gateway SpecGateway GatewayProofs GatewayLinks GatewayStory GatewayNode GatewayUnsol GatewayLive NodeSendM NodeReq SystemM SpecSystem.
Import ListNotations.
Open Scope list_scope.
Open Scope string_scope.
Open Scope list_scope.
Open Scope Z_scope.

(** ** Packets with an end point and a command have a whole header *)
Lemma command_whole bs d c a : bytes_ok bs -> decode bs = Ok (VObj (CMsg m_Zip_ZipPacket) d) -> getattr (VObj (CMsg m_Zip_ZipPacket) d) "command" = VObj c a ->
  exists ep, getattr (VObj (CMsg m_Zip_ZipPacket) d) "sourceEP" = VU 7 ep /\ zip_from bs ep (VObj c a).
Proof.
  intros B E C. destruct (decoded_class _ _ _ B E) as [_ (p & -> & BP)]. change (s_cls m_Zip_ZipPacket) with 35 in *. change (s_cmd m_Zip_ZipPacket) with 2 in *.
  rewrite getattr_spec in C. assert (AC : aget "command" d = Some (VObj c a)). { destruct (aget "command" d); [congruence|discriminate C]. } clear C.
  destruct p as [|f0 [|f1 [|sq [|se [|de p]]]]].
  6:{ assert (P5 : bytes_ok [f0; f1; sq; se; de]) by (unfold bytes_ok in BP; rewrite !Forall_cons_iff in BP; repeat (constructor; [tauto|]); constructor).
    destruct (zip_header_of f0 f1 sq se de p _ B E) as (d' & X & HR); injection X as <-. destruct (zip_fields _ _ _ _ _ _ P5 HR) as (_ & _ & _ & _ & _ & _ & _ & _ & _ & _ & _ & SE & _).
    exists (se mod 128). split; [rewrite getattr_spec, SE; reflexivity|]. exists f0, f1, sq, se, de, p, d. auto. }
  all: exfalso.
  all: first [ destruct (view_short 0 (firstn 0 (s_attrs m_Zip_ZipPacket)) (skipn 0 (s_attrs m_Zip_ZipPacket)) [] d eq_refl eq_refl eq_refl eq_refl BP E) as [HR DO]
             | destruct (view_short 1 (firstn 7 (s_attrs m_Zip_ZipPacket)) (skipn 7 (s_attrs m_Zip_ZipPacket)) [f0] d eq_refl eq_refl eq_refl eq_refl BP E) as [HR DO]
             | destruct (view_short 2 (firstn 12 (s_attrs m_Zip_ZipPacket)) (skipn 12 (s_attrs m_Zip_ZipPacket)) [f0; f1] d eq_refl eq_refl eq_refl eq_refl BP E) as [HR DO]
             | destruct (view_short 3 (firstn 13 (s_attrs m_Zip_ZipPacket)) (skipn 13 (s_attrs m_Zip_ZipPacket)) [f0; f1; sq] d eq_refl eq_refl eq_refl eq_refl BP E) as [HR DO]
             | destruct (view_short 4 (firstn 15 (s_attrs m_Zip_ZipPacket)) (skipn 15 (s_attrs m_Zip_ZipPacket)) [f0; f1; sq; se] d eq_refl eq_refl eq_refl eq_refl BP E) as [HR DO] ].
  all: pose proof (DO "command") as X; cbn in X; congruence.
Qed.
(** of all messages only Z/IP packets have a field "sourceEP" *)
Lemma sourced_only : forallb (fun s => String.eqb (s_name s) (s_name m_Zip_ZipPacket) || match declared "sourceEP" (s_attrs s) with None => true | Some _ => false end) registry = true.
Proof. vm_compute. reflexivity. Qed.
Lemma sourced_zip bs m e : bytes_ok bs -> decode bs = Ok m -> ep_key (getattr m "sourceEP") = Some e -> exists d, m = VObj (CMsg m_Zip_ZipPacket) d.
Proof.
  intros B E K. destruct bs as [|c [|n p]].
  1,2: rewrite decode_short in E by (cbn; lia); injection E as <-; discriminate K.
  destruct (decode_frame c n p B) as (r2 & _ & _ & _ & _ & _ & D). cbv zeta in D. rewrite E in D. symmetry in D. destruct (lookup (256 * c + n)) as [s|] eqn:L; [|injection D as <-; discriminate K].
  destruct (parse_attrs _ _ _ _ _ _) as [[d r3]|] eqn:P; [|discriminate]. cbn [bind] in D. injection D as <-. apply lookup_some in L as [IR _].
  pose proof sourced_only as SO. rewrite forallb_forall in SO. specialize (SO s IR). apply orb_prop in SO as [SO|SO].
  - exact (is_msg_true m_Zip_ZipPacket _ _ zip_in B E SO).
  - exfalso. rewrite getattr_spec in K. destruct (declared "sourceEP" (s_attrs s)) eqn:DS; [discriminate|]. rewrite (parse_keeps _ _ _ _ _ _ _ _ "sourceEP" P DS) in K. discriminate K.
Qed.

(** ** A message is announced on a connection only when a datagram is received *)
Lemma heard_from evs tr k e k' os m : exec conn0 evs k tr -> step k e = Some (k', os) -> In (OHeard m) os ->
  exists bs, bytes_ok bs /\ In (ORecv bs) os /\ decode bs = Ok m /\ (is_msg m_Zip_ZipPacket m = true \/ is_msg m_ZipND_ZipNodeAdvertisement m = true).
Proof.
  assert (CS : forall t bs s l, In (OHeard m) (conn_send t bs s ++ l) -> In (OHeard m) l) by (intros t bs s l J; apply in_app_or in J as [J|J]; [unfold conn_send in J; destruct (c_up s); cbn in J; intuition discriminate|exact J]).
  intros X ST J. pose proof (good_case _ _ _ _ _ (proj1 (exec_good _ _ _ X)) ST) as K. destruct K; subst; try (cbn in J; intuition discriminate).
  - destruct J as [J|J]; [discriminate|]. apply CS in J. cbn in J. intuition discriminate.
  - destruct J as [J|J]; [discriminate|]. rewrite <- (app_nil_r (conn_send _ _ _)) in J. apply CS in J. destruct J.
  - exists bs. split; [assumption|]. split; [left; reflexivity|]. destruct J as [J|J]; [discriminate|]. rename H1 into E. unfold on_packet in E. destruct (decode bs) as [v|e]; [|injection E as <- <-; cbn in J; intuition discriminate].
    assert (CR : command_received v k = (s', os) -> v = m).
    { intros Q. unfold command_received in Q. destruct (message_received _ _) as [w [[]|]]; injection Q as <- <-; cbn in J; intuition congruence. }
    assert (AP : (let (s0, r) := ack_packet v k in (s0, [match r with Ok _ => OHandled true | Err e => OErr e end])) = (s', os) -> False).
    { intros Q. destruct (ack_packet v k) as [s0 [?|?]]; injection Q as <- <-; cbn in J; intuition discriminate. }
    destruct (is_msg m_Zip_ZipPacket v) eqn:Z.
    + destruct (truthy (getattr v "ackResponse")); [destruct (AP E)|]. destruct (truthy (getattr v "nackResponse")); [destruct (truthy (getattr v "nackWaiting")); [destruct (AP E)|injection E as <- <-; cbn in J; intuition discriminate]|].
      destruct (truthy (getattr v "ackRequest")); [injection E as <- <-; cbn in J; intuition discriminate|]. destruct (truthy (getattr v "zwCmdIncluded")); [|injection E as <- <-; cbn in J; intuition discriminate].
      rewrite (CR E) in *. auto.
    + destruct (is_msg m_Zip_ZipKeepAlive v); [injection E as <- <-; cbn in J; intuition discriminate|]. destruct (is_msg m_ZipND_ZipNodeAdvertisement v) eqn:ZN; [|injection E as <- <-; cbn in J; intuition discriminate].
      rewrite (CR E) in *. auto.
  - rewrite <- (app_nil_r (conn_send _ _ _)) in J. apply CS in J. destruct J.
Qed.

(** ** Listed addresses were found by asking for them *)
(** a frame that stores an address is directly above the one that finds it; [p]: the node the frame below asks for *)
Fixpoint pairs (p : option Z) (fs : list frame) : Prop :=
  match fs with
  | [] => True
  | f :: fs' => match f with FReport n _ | FSetupIp n _ => p = Some n | _ => True end /\ pairs (match f with FIp n => Some n | _ => None end) fs'
  end.
Definition found (t : nat) (nodes nodes' : list (Z * val)) (os : list gobs) : Prop := forall n a, In (n, VIPv6 a) nodes' -> In (n, VIPv6 a) nodes \/ In (GFound t n (VIPv6 a)) os.
Definition asked (t : nat) (d : gdata) (g : go) : Prop := found t (d_nodes d) (d_nodes (gd g)) (gos g) /\ match snd g with AWait _ fs => pairs None fs | ARet _ => True end.
Lemma pairs_any p fs : pairs None fs -> pairs p fs.
Proof. destruct fs as [|f fs]; [auto|]. cbn. intros [A B]. split; [|exact B]. destruct f; try exact I; discriminate A. Qed.
Lemma pairs_app p a b : pairs p a -> pairs None b -> pairs p (a ++ b).
Proof. revert p. induction a as [|f a IH]; intros p A B; [apply pairs_any; exact B|]. cbn in *. split; [apply A|]. apply IH; [apply A|exact B]. Qed.
Lemma found_refl t x os : found t x x os. Proof. intros n a J. auto. Qed.
Lemma asked_ret t r d : asked t d (ret r d). Proof. split; [apply found_refl|exact I]. Qed.
Lemma asked_sub t l c d : asked t d (sub t l c d).
Proof.
  destruct (sub t l c d) as [[d' os] a] eqn:E. destruct (sub_own _ _ _ _ _ _ _ E) as [(_ & -> & -> & ->)|(k & k' & xs & _ & _ & -> & -> & A)]; [apply asked_ret|].
  split; [destruct l; apply found_refl|]. cbn. destruct A as [->|(e & -> & _)]; exact I.
Qed.
Lemma asked_under t d g fs k : asked t d g -> pairs None fs -> (forall r d', asked t d' (k r d')) -> asked t d (under g fs k).
Proof.
  intros (G1 & G2) F K. destruct g as [[d1 os] [r|w gs]]; cbn [under gos gd fst snd] in *.
  - specialize (K r d1). destruct (k r d1) as [[d2 os2] a]. destruct K as (K1 & K2). cbn [gos gd fst snd] in *. split; [|exact K2]. intros n x J. destruct (K1 n x J) as [H|H]; [destruct (G1 n x H); auto|]; right; apply in_or_app; auto.
  - split; [exact G1|]. cbn. apply pairs_app; [exact G2|exact F].
Qed.
Lemma asked_frames t d g fs : asked t d g -> pairs None fs -> asked t d (match g with (d', os, AWait w gs) => (d', os, AWait w (gs ++ fs)) | (d', os, ARet r) => (d', os, ARet r) end).
Proof. intros G F. pose proof (asked_under t d g fs ret G F ltac:(intros; apply asked_ret)) as Q. destruct g as [[d1 os] [r|w gs]]; [exact G|exact Q]. Qed.
Lemma asked_from t d d1 g : d_nodes d1 = d_nodes d -> asked t d1 g -> asked t d g. Proof. intros E (A & B). split; [|exact B]. rewrite <- E. exact A. Qed.
Lemma asked_ip t n d : asked t d (start_ip t n d) /\ match snd (start_ip t n d) with AWait _ fs => fs = [FIp n] | ARet r => exists e, r = Err e end.
Proof.
  unfold start_ip. destruct (solicit n) as [bs|e]; [|split; [apply asked_ret|eexists; reflexivity]]. pose proof (asked_sub t None (CWait adv_hid 3000) d) as (A & _).
  destruct (sub t None (CWait adv_hid 3000) d) as [[d' os] a] eqn:E. destruct (sub_own _ _ _ _ _ _ _ E) as [(H & _)|(k & k' & xs & _ & _ & -> & -> & [->|(e & -> & H & _)])]; try discriminate. cbn [snd].
  split; [|reflexivity]. split; [|cbn; tauto]. intros x y J. destruct (A x y J); [auto|]. right. right. assumption.
Qed.
(** looking for the address of [n] and storing it *)
Lemma asked_find t n f d k : match f with FReport n' _ | FSetupIp n' _ => n' = n | _ => True end -> (forall r d', asked t d' (k r d')) -> asked t d (under (start_ip t n d) [f] k).
Proof.
  intros F K. pose proof (asked_ip t n d) as [A B]. destruct (start_ip t n d) as [[d1 os] [r|w gs]]; cbn [snd] in B.
  - apply (asked_under t d (d1, os, ARet r) [] k A I K).
  - subst gs. split; [apply A|]. cbn. destruct f; subst; auto.
Qed.
Lemma asked_loop t ns : forall d, asked t d (report_loop t ns d).
Proof.
  induction ns as [|n ns IH]; intros d; cbn [report_loop]; [split; [apply found_refl|exact I]|]. destruct (dmem Z.eqb n (d_nodes d)); [apply IH|].
  apply asked_find; [reflexivity|]. intros [?|?] ?; apply asked_ret.
Qed.
Lemma asked_setup_loop t ns : forall d, asked t d (setup_loop t ns d).
Proof.
  induction ns as [|n ns IH]; intros d; cbn [setup_loop]; [apply asked_ret|]. destruct (dget Z.eqb n (d_nodes d)) as [ip|]; [|apply asked_ret]. destruct (truthy ip); [apply IH|].
  apply asked_find; [reflexivity|]. intros [?|?] ?; apply asked_ret.
Qed.
Lemma asked_mode t m tmo d : asked t d (start_mode t m tmo d).
Proof. unfold start_mode. apply (asked_frames t d (sub t None _ d) [FMode m]); [apply asked_sub|cbn; auto]. Qed.
Lemma asked_list t d : asked t d (start_list t d).
Proof.
  unfold start_list. destruct (d_nodes d) eqn:N; [|apply asked_ret]. cbv zeta. apply (asked_from t d (set_nm (d_nm d + 1) d)); [reflexivity|]. destruct (new_msg _ _) as [m|e]; [|apply asked_ret].
  apply (asked_frames t _ (sub t None _ _) [FList]); [apply asked_sub|cbn; auto].
Qed.
Lemma asked_nm t q d : asked t d (start_nm t q d).
Proof.
  unfold start_nm. cbv zeta. apply (asked_from t d (set_nm (d_nm d + 1) d)); [reflexivity|]. destruct (nm_msg q _) as [m|e]; [|apply asked_ret]. apply (asked_frames t _ (sub t None _ _) [FNm q]); [apply asked_sub|cbn; auto].
Qed.
Lemma in_dset n v x k (d : list (Z * val)) : In (n, v) (dset Z.eqb k x d) -> (n, v) = (k, x) \/ In (n, v) d.
Proof. induction d as [|[k' v'] d IH]; cbn; [intros [H|[]]; auto|]. destruct (Z.eqb_spec k k') as [->|]; cbn; [intros [H|H]; auto|]. intros [H|H]; [auto|]. destruct (IH H); auto. Qed.
Section From.
Variable ord : list Z -> list Z.
Lemma asked_setup t r d : asked t d (setup_nodes ord t r d).
Proof. unfold setup_nodes. destruct r as [[v|l]|e]; try apply asked_ret. destruct v; try apply asked_ret. apply asked_setup_loop. Qed.
Lemma asked_link t n d : asked t d (start_link t n d).
Proof. unfold start_link. destruct (dget Z.eqb n (d_conns d)); [apply asked_ret|]. apply asked_find; [exact I|intros; apply asked_ret]. Qed.
(** any frame but the two that store an address *)
Lemma asked_frame t f r d : match f with FReport _ _ | FSetupIp _ _ => False | _ => True end -> asked t d (frame_step ord t f r d) /\
  forall n ip d' os, f = FIp n -> frame_step ord t f r d = (d', os, ARet (Ok (GV ip))) -> In (GFound t n ip) os.
Proof.
  intros NF. split.
  2:{ intros n ip d' os -> E. destruct r as [[v|l]|e]; cbn in E; try discriminate. injection E as <- <- <-. left. reflexivity. }
  assert (W : forall w g, match g with FReport _ _ | FSetupIp _ _ => False | _ => True end -> asked t d (d, [], AWait w [g])) by (intros w g G; split; [apply found_refl|cbn; split; [destruct g; tauto|exact I]]).
  destruct f; try contradiction; destruct r as [[v|l']|e]; cbn [frame_step]; try (destruct e; match goal with |- asked _ _ (ret _ _) => apply asked_ret end);
    try match goal with |- asked _ _ (ret _ _) => apply asked_ret | |- asked _ _ (setup_nodes _ _ _ _) => apply asked_setup end.
  all: try (apply asked_under; [|cbn; auto|intros [?|?] ?; first [apply asked_ret|apply asked_setup|split; [apply found_refl|cbn; auto]]]; first [apply asked_mode|apply asked_sub|apply asked_list]).
  all: try (apply W; exact I).
  - split; [apply found_refl|exact I].
  - destruct v; try apply asked_ret. split; [apply found_refl|cbn; auto].
  - apply (asked_from t d (set_conns (dset Z.eqb n l (d_conns d)) d)); [reflexivity|apply asked_ret].
  - apply (asked_from t d (set_conns (dset Z.eqb n l (d_conns d)) d)); [reflexivity|apply asked_ret].
  - apply asked_sub.
  - destruct (is_mode v mode); [apply asked_ret|]. apply asked_under; [|cbn; auto|intros; apply asked_ret]. destruct (new_msg _ _); [apply asked_sub|apply asked_ret].
  - destruct (getattr v "nodes"); try (apply (asked_from t d (set_ctl (getattr v "nodeListControllerId") d)); [reflexivity|apply asked_ret]).
    split; [|exact I]. intros n a J. exfalso. cbn in J. apply in_map_iff in J as (x & E & _). discriminate.
Qed.
Lemma asked_unwind t fs : forall p r d os0, pairs p fs -> (forall n ip, p = Some n -> r = Ok (GV ip) -> In (GFound t n ip) os0) ->
  found t (d_nodes d) (d_nodes (gd (unwind ord t r fs d))) (os0 ++ gos (unwind ord t r fs d)) /\ match snd (unwind ord t r fs d) with AWait _ gs => pairs None gs | ARet _ => True end.
Proof.
  induction fs as [|f fs IH]; intros p r d os0 P HF; cbn [unwind]; [split; [apply found_refl|exact I]|]. cbn [pairs] in P. destruct P as [P1 P2].
  assert (OK : asked t d (frame_step ord t f r d) -> (forall n ip d' os, f = FIp n -> frame_step ord t f r d = (d', os, ARet (Ok (GV ip))) -> In (GFound t n ip) os) -> (forall n w gs d' os, f = FIp n -> frame_step ord t f r d <> (d', os, AWait w gs)) ->
    let g := match frame_step ord t f r d with (d', os, AWait w gs) => (d', os, AWait w (gs ++ fs)) | (d', os, ARet r') => match unwind ord t r' fs d' with (d'', os', a) => (d'', os ++ os', a) end end in
    found t (d_nodes d) (d_nodes (gd g)) (os0 ++ gos g) /\ match snd g with AWait _ gs => pairs None gs | ARet _ => True end).
  { intros (A & B) F NW. destruct (frame_step ord t f r d) as [[d1 os] [r'|w gs]] eqn:E; cbv zeta; cbn [gd gos fst snd] in *.
    - specialize (IH _ r' d1 os P2). destruct IH as [I1 I2]. { intros n ip Q ->. destruct f; try discriminate. injection Q as ->. exact (F _ _ _ _ eq_refl eq_refl). }
      destruct (unwind ord t r' fs d1) as [[d2 os2] a]. cbn [gd gos fst snd] in *. split; [|exact I2]. intros n x J. destruct (I1 n x J) as [K|K]; [|right; apply in_or_app; right; exact K]. destruct (A n x K); [auto|]. right. apply in_or_app. right. apply in_or_app. auto.
    - split; [intros n x J; destruct (A n x J); [auto|]; right; apply in_or_app; auto|]. apply pairs_app; [exact B|]. destruct f; try exact P2. destruct (NW n w gs d1 os eq_refl eq_refl). }
  destruct f as [n|n|n l|cmd sep dep tmo|n rest|m| | |q| | | | | |n rest]; try (apply OK; [apply asked_frame; exact I|intros ? ? ? ? Q; discriminate Q|intros ? ? ? ? ? Q; discriminate Q]).
  - apply OK; [apply asked_frame; exact I|exact (proj2 (asked_frame t (FIp n) r d I))|]. intros n' w gs d' os _. destruct r as [[v|l]|e]; cbn; discriminate.
  - (* the address of [n] is stored *) clear OK. destruct r as [[ip|l]|e]; cbn [frame_step]; try (cbn [ret]; specialize (IH None (Err e) d os0 P2 ltac:(intros; discriminate)) || specialize (IH None (Err EUnmodelled) d os0 P2 ltac:(intros; discriminate)); destruct (unwind ord t _ fs d) as [[d2 os2] a]; exact IH).
    specialize (HF n ip P1 eq_refl). pose proof (asked_loop t rest (set_nodes (dset Z.eqb n ip (d_nodes d)) d)) as (A & B). destruct (report_loop t rest _) as [[d1 os] [r'|w gs]]; cbn [gd gos fst snd] in *.
    + specialize (IH None r' d1 os P2 ltac:(intros; discriminate)). destruct IH as [I1 I2]. destruct (unwind ord t r' fs d1) as [[d2 os2] a]. cbn [gd gos fst snd] in *. split; [|exact I2].
      intros x y J. destruct (I1 x y J) as [K|K]; [|right; apply in_or_app; auto]. destruct (A x y K) as [K'|K']; [|right; apply in_or_app; right; apply in_or_app; auto]. apply in_dset in K' as [K'|K']; [injection K' as -> <-; right; apply in_or_app; auto|auto].
    + split; [|apply pairs_app; [exact B|exact P2]]. intros x y J. destruct (A x y J) as [K'|K']; [|right; apply in_or_app; auto]. apply in_dset in K' as [K'|K']; [injection K' as -> <-; right; apply in_or_app; auto|auto].
  - clear OK. destruct r as [[ip|l]|e]; cbn [frame_step]; try (cbn [ret]; specialize (IH None (Err e) d os0 P2 ltac:(intros; discriminate)) || specialize (IH None (Err EUnmodelled) d os0 P2 ltac:(intros; discriminate)); destruct (unwind ord t _ fs d) as [[d2 os2] a]; exact IH).
    specialize (HF n ip P1 eq_refl). pose proof (asked_setup_loop t rest (set_nodes (dset Z.eqb n ip (d_nodes d)) d)) as (A & B). destruct (setup_loop t rest _) as [[d1 os] [r'|w gs]]; cbn [gd gos fst snd] in *.
    + specialize (IH None r' d1 os P2 ltac:(intros; discriminate)). destruct IH as [I1 I2]. destruct (unwind ord t r' fs d1) as [[d2 os2] a]. cbn [gd gos fst snd] in *. split; [|exact I2].
      intros x y J. destruct (I1 x y J) as [K|K]; [|right; apply in_or_app; auto]. destruct (A x y K) as [K'|K']; [|right; apply in_or_app; right; apply in_or_app; auto]. apply in_dset in K' as [K'|K']; [injection K' as -> <-; right; apply in_or_app; auto|auto].
    + split; [|apply pairs_app; [exact B|exact P2]]. intros x y J. destruct (A x y J) as [K'|K']; [|right; apply in_or_app; auto]. apply in_dset in K' as [K'|K']; [injection K' as -> <-; right; apply in_or_app; auto|auto].
Qed.
Lemma asked_start t c d : asked t d (start ord t c d).
Proof.
  destruct c; cbn [start]; [apply asked_nm|apply asked_list|apply asked_ip|apply asked_link| | |apply asked_mode|split; [apply found_refl|cbn; auto]].
  - apply asked_under; [apply asked_link|cbn; auto|]. intros [[|]|] ?; try apply asked_ret. apply asked_sub.
  - unfold start_report. destruct nodes; try apply asked_ret. pose proof (asked_loop t (ord l) (set_nodes (filter (fun e => existsb (Z.eqb (fst e)) l) (d_nodes d)) d)) as (A & B). split; [|exact B].
    intros n a J. destruct (A n a J) as [K|K]; [|auto]. cbn in K. apply filter_In in K as [K _]. auto.
Qed.
Record finv (s : gw) (tr : gtrace) : Prop := {
  Fi1 : forall n a, In (n, VIPv6 a) (d_nodes (g_d s)) -> exists k t, In (k, GFound t n (VIPv6 a)) tr;
  Fi2 : forall t c w fs, nth_error (g_tasks s) t = Some (mkGT c (GWait w fs)) -> pairs None fs }.
Lemma exec_finv es s tr : gexec ord gw0 es s tr -> finv s tr.
Proof.
  induction 1 as [|es s tr e s' os X [I1 I2] ST]; [split; [intros n a []|intros [|t] c w fs N; discriminate]|].
  assert (UP : forall n a, (exists k t, In (k, GFound t n (VIPv6 a)) tr) -> exists k t, In (k, GFound t n (VIPv6 a)) (tr ++ gstamp (g_now s) os)) by (intros n a (k & t & J); exists k, t; apply in_or_app; auto).
  destruct (step_case _ _ _ _ _ ST) as [e s' os T SM NT|e c d os a pre S NT OR|e t c w fs r d1 d os a pre N SM BK NT U].
  - split; [|intros t c w fs N; rewrite T in N; exact (I2 _ _ _ _ N)]. intros n a J. apply UP, I1. destruct SM as (_ & _ & SN & _). congruence.
  - pose proof (asked_start (length (g_tasks s)) c (g_d s)) as (A & B). rewrite S in A, B. cbn [gd gos fst snd] in *. split.
    + intros n x J. cbn in J. destruct (A n x J) as [K|K]; [apply UP, I1, K|]. exists (g_now s), (length (g_tasks s)). apply stamped_in. apply in_or_app. right. right. apply in_or_app. auto.
    + intros t c' w fs N. cbn [g_tasks] in N. rewrite nth_snoc in N. destruct (Nat.eqb t (length (g_tasks s))); [|exact (I2 _ _ _ _ N)]. injection N as <- N. destruct a as [r|w' fs']; cbn in N; [discriminate|]. injection N as <- <-. exact B.
  - destruct (asked_unwind t fs None r d1 [] (I2 _ _ _ _ N)) as [A B]; [intros; discriminate|]. rewrite U in A, B. cbn [gd gos fst snd List.app] in *. split.
    + intros n x J. cbn in J. destruct (A n x J) as [K|K]; [|exists (g_now s), t; apply stamped_in; apply in_or_app; right; right; apply in_or_app; auto].
      apply UP, I1. destruct SM as (_ & _ & SN & _). congruence.
    + intros t' c' w' fs' N'. cbn [g_tasks] in N'. rewrite nth_upd, N in N'. destruct (Nat.eqb t t'); [|exact (I2 _ _ _ _ N')]. injection N' as <- N'. destruct a as [r'|w'' fs'']; cbn in N'; [discriminate|]. injection N' as <- <-. exact B.
Qed.

(** ** A connection is made to an address that was found for its node *)
Definition no_new (o : gobs) : Prop := match o with GNew _ _ _ _ => False | _ => True end.
Lemma no_link_new os : Forall no_link os -> Forall no_new os. Proof. apply Forall_impl. intros []; cbn; auto. Qed.
Lemma sub_new t l c d : Forall no_new (gos (sub t l c d)).
Proof.
  destruct (sub t l c d) as [[d' os] a] eqn:E. destruct (sub_own _ _ _ _ _ _ _ E) as [(_ & -> & -> & _)|(k & k' & xs & _ & _ & -> & _ & _)]; [constructor|].
  constructor; [exact I|]. apply Forall_forall. intros x J. apply in_map_iff in J as (? & <- & _). exact I.
Qed.
Lemma start_new t c d : Forall no_new (gos (start ord t c d)).
Proof.
  destruct (start ord t c d) as [[d' os] a] eqn:ES. cbn. destruct (aims c) as [n|] eqn:A.
  - destruct c; cbn [aims start] in *; try discriminate; injection A as ->.
    + destruct (link_start _ _ _ _ _ _ ES) as (_ & S2 & _). apply no_link_new. exact S2.
    + destruct (start_link t n d) as [[d1 os1] a1] eqn:SL. destruct (link_start _ _ _ _ _ _ SL) as (_ & S2 & [(l & -> & -> & -> & G)|(G & [(e' & ->)|(u & ->)])]); cbn [under] in ES.
      * unfold send_over in ES. pose proof (sub_new t (Some l) (CSend cmd sep dep tmo) d) as N. destruct (sub t (Some l) (CSend cmd sep dep tmo) d) as [[d2 os2] a2]. cbn in ES. injection ES as <- <- <-. exact N.
      * cbn in ES. rewrite app_nil_r in ES. injection ES as <- <- <-. apply no_link_new. exact S2.
      * injection ES as <- <- <-. apply no_link_new. exact S2.
  - pose proof (tame_start ord t c d A) as (_ & T2 & _). rewrite ES in T2. apply no_link_new. exact T2.
Qed.
Lemma new_found es s tr : gexec ord gw0 es s tr -> forall k t l n a, In (k, GNew t l n a) tr -> In (k, GFound t n (VIPv6 a)) tr.
Proof.
  induction 1 as [|es s tr e s' os X IH ST]; [intros ? ? ? ? ? []|]. intros k t l n a J. apply in_or_app. apply in_app_or in J as [J|J]; [left; exact (IH _ _ _ _ _ J)|right].
  unfold gstamp in *. apply in_map_iff in J as (x & Q & J). injection Q as <- ->. apply in_map. pose proof (exec_linv _ _ _ _ X) as L.
  assert (NN : forall l0, Forall no_new l0 -> ~ In (GNew t l n a) l0) by (intros l0 F Q; rewrite Forall_forall in F; exact (F _ Q)).
  apply step_case in ST. destruct ST as [e s' os ET SM NT|e c d os ac pre ES NT EV|e t0 c w fs r d1 d os ac pre EN SM BK NT EU].
  - exfalso. rewrite Forall_forall in NT. specialize (NT _ J). discriminate.
  - exfalso. apply in_step in J; [|exact NT|discriminate]. destruct J as [J|[J|J]]; [discriminate| |destruct ac; [destruct J as [J|[]]; discriminate|destruct J]].
    pose proof (start_new (length (g_tasks s)) c (g_d s)) as F. rewrite ES in F. exact (NN _ F J).
  - apply in_step in J; [|exact NT|discriminate]. destruct J as [J|[J|J]]; [discriminate| |destruct ac; [destruct J as [J|[]]; discriminate|destruct J]].
    apply in_or_app. right. right. apply in_or_app. left. clear NT BK SM.
    pose proof (L7 _ _ L _ _ _ EN) as SH. unfold shape in SH. destruct (aims c) as [n0|] eqn:A.
    + destruct SH as [SH|[(r0 & E)|(l0 & u & E)]]; [|discriminate E|].
      * remember (GWait w fs) as p eqn:EP in SH. destruct SH as [w0 NW|l0 M]; injection EP as E1 E2; [subst w0 fs|subst w fs].
        -- cbn [unwind] in EU. destruct r as [[m|l0]|e'].
           ++ cbn [frame_step] in EU. destruct (getattr m "ipv6") eqn:IPV; cbn [frame_step ret] in EU; rewrite ?err_rest in EU; cbn in EU; injection EU as <- <- <-; destruct J as [J|J]; try discriminate; try (destruct J; fail).
              destruct J as [J|J]; [|destruct J]. injection J as <- <- <- <-. left. reflexivity.
           ++ cbn [frame_step ret] in EU. rewrite err_rest in EU. cbn in EU. injection EU as <- <- <-. destruct J.
           ++ assert (E1 : forall f, (f = FIp n0 \/ f = FLink n0) -> frame_step ord t0 f (Err e') d1 = ret (Err e') d1) by (intros f [->| ->]; destruct e'; reflexivity).
              rewrite (E1 (FIp n0)) in EU by auto. cbn [ret] in EU. rewrite (E1 (FLink n0)) in EU by auto. cbn [ret] in EU. rewrite err_rest in EU. cbn in EU. injection EU as <- <- <-. destruct J.
        -- exfalso. destruct r as [v|e'].
           ++ destruct c; cbn [aims rest_of] in *; try discriminate; injection A as ->; cbn [unwind frame_step ret] in EU; [injection EU as <- <- <-; destruct J|].
              unfold send_over in EU. pose proof (sub_new t0 (Some l0) (CSend cmd sep dep tmo) (set_conns (dset Z.eqb n0 l0 (d_conns d1)) d1)) as F.
              destruct (sub t0 (Some l0) (CSend cmd sep dep tmo) (set_conns (dset Z.eqb n0 l0 (d_conns d1)) d1)) as [[d2 os2] [r2|w2 fs2]]; cbn in EU, F; injection EU as <- <- <-; rewrite ?app_nil_r in J; exact (NN _ F J).
           ++ cbn [unwind] in EU. assert (E1 : frame_step ord t0 (FOpen n0 l0) (Err e') d1 = ret (Err e') d1) by (destruct e'; reflexivity). rewrite E1 in EU. cbn [ret] in EU. rewrite err_rest in EU. injection EU as <- <- <-. destruct J.
      * injection E as -> ->. cbn in EU. injection EU as <- <- <-. destruct J.
    + destruct SH as [P NW]. pose proof (tame_unwind ord t0 fs P r d1) as (_ & T2 & _). rewrite EU in T2. elim (NN _ (no_link_new _ T2) J).
Qed.

(** ** What is announced for a node was sent from an address found for it *)
Definition made_to (n : Z) (l : nat) (a : Z) (tr : gtrace) : Prop := (exists k t, In (k, GNew t l n a) tr) /\ exists k t, In (k, GFound t n (VIPv6 a)) tr.
Lemma made_to_app n l a x y : made_to n l a x -> made_to n l a (x ++ y).
Proof. intros [(k & t & J) (k' & t' & J')]. split; [exists k, t|exists k', t']; apply in_or_app; auto. Qed.
Lemma made_made_to es s tr n l : gexec ord gw0 es s tr -> made n l tr -> exists a, made_to n l a tr.
Proof. intros X (k & t & a & J). exists a. split; [eauto|]. exists k, t. exact (new_found _ _ _ X _ _ _ _ _ J). Qed.
Inductive gorigin (n ep : Z) (c : val) (a : Z) (tr : gtrace) : Prop :=
| GO_unsol k k' t bs : In (k, GPacket bs (Some a)) tr -> In (k', GFound t n (VIPv6 a)) tr -> zip_from bs ep c -> gorigin n ep c a tr
| GO_link k l bs : In (k, GAt (Some l) (ORecv bs)) tr -> made_to n l a tr -> zip_from bs ep c -> gorigin n ep c a tr
| GO_advert k l bs : In (k, GAt (Some l) (ORecv bs)) tr -> made_to n l a tr -> ep = 0 -> decode bs = Ok c -> hid c = advert -> is_msg m_Supervision_Get c = false -> gorigin n ep c a tr.
Lemma gorigin_app n ep c ip a b : gorigin n ep c ip a -> gorigin n ep c ip (a ++ b).
Proof.
  intros [k k' t bs J F Z|k l bs J M Z|k l bs J M E D H S].
  - eapply GO_unsol; [apply in_or_app; left; exact J|apply in_or_app; left; exact F|exact Z].
  - eapply GO_link; [apply in_or_app; left; exact J|apply made_to_app; exact M|exact Z].
  - eapply GO_advert; [apply in_or_app; left; exact J|apply made_to_app; exact M|exact E|exact D|exact H|exact S].
Qed.
Lemma told_from es s tr e s' os l n ep c fl key cl d : gexec ord gw0 es s tr -> gstep ord s e = Some (s', os) -> In (GTold l n ep c fl) os -> ep_key ep = Some key -> c = VObj cl d ->
  exists ip, gorigin n key c ip (tr ++ gstamp (g_now s) os).
Proof.
  intros X E J EP CO.
  assert (SP : forall c0 s0 s1 o1, spawn ord c0 s0 = (s1, o1) -> ~ In (GTold l n ep c fl) o1).
  { intros c0 s0 s1 o1 SE SJ. destruct (start ord (length (g_tasks s0)) c0 (g_d s0)) as [[d0 os1] a] eqn:S. rewrite (spawn_eq _ _ _ _ _ _ S) in SE. injection SE as <- <-. destruct SJ as [SJ|SJ]; [discriminate|]. apply in_app_or in SJ as [SJ|SJ]; [|destruct a; [destruct SJ as [SJ|[]]; discriminate|exact SJ]].
    exact (not_told _ _ _ _ _ _ _ (start_ours _ _ _ _ _ _ _ S) SJ). }
  assert (WK : forall t w r fs s0 s1 o1, wake ord t w r fs s0 = (s1, o1) -> ~ In (GTold l n ep c fl) o1).
  { intros t w r fs s0 s1 o1 WE WJ. unfold wake in WE. destruct (unwind ord t r fs (g_d s0)) as [[d0 os1] a] eqn:U. injection WE as <- <-. destruct WJ as [WJ|WJ]; [discriminate|]. apply in_app_or in WJ as [WJ|WJ]; [|destruct a; [destruct WJ as [WJ|[]]; discriminate|exact WJ]].
    exact (not_told _ _ _ _ _ _ _ (unwind_ours _ _ _ _ _ _ _ _ U) WJ). }
  destruct e as [dt|c0|l0 e|t r|bs addr]; cbn [gstep] in E.
  - destruct (0 <=? dt); [|discriminate]. injection E as <- <-. destruct J.
  - exfalso. assert (E' : Some (spawn ord c0 s) = Some (s', os)) by (destruct c0; try exact E; discriminate). assert (E2 : spawn ord c0 s = (s', os)) by congruence. exact (SP _ _ _ _ E2 J).
  - assert (K : exists k k' xs o2, conn_at l0 (g_d s) = Some k /\ step k e = Some (k', xs) /\ os = flat_map (lift l0 (g_d s)) xs ++ o2 /\ ~ In (GTold l n ep c fl) o2).
    { destruct e; try discriminate; destruct (conn_at l0 (g_d s)) as [k|]; try discriminate; match type of E with context [step k ?x] => destruct (step k x) as [[k' xs]|] eqn:ST; [|discriminate] end;
        (destruct (returned xs) as [[uu rr]|]; [|injection E as <- <-; exists k, k', xs, []; rewrite app_nil_r; repeat (split; [reflexivity || assumption|]); intros []]);
        (destruct (waiter_of l0 uu 0 (g_tasks s)) as [[tt0 fs]|]; [|injection E as <- <-; exists k, k', xs, []; rewrite app_nil_r; repeat (split; [reflexivity || assumption|]); intros []]);
        match type of E with context [wake ord ?a0 ?b0 ?c1 ?d0 ?s0] => destruct (wake ord a0 b0 c1 d0 s0) as [s2 o2] eqn:W end; injection E as <- <-; exists k, k', xs, o2; repeat (split; [reflexivity || assumption|]); exact (WK _ _ _ _ _ _ _ W). }
    destruct K as (k & k' & xs & o2 & CA & ST & -> & N). apply in_app_or in J as [J|J]; [|elim (N J)]. apply in_flat_map in J as (x & JX & J).
    destruct l0 as [i|]; cbn [lift] in J; [|destruct J as [J|[]]; discriminate]. destruct J as [J|J]; [discriminate|]. destruct x as [| | | | |m| |]; try (destruct J; fail). destruct J as [J|[]].
    destruct (link_good _ _ _ _ (exec_linked _ _ _ _ X) CA) as (evs & XK). destruct (heard_from _ _ _ _ _ _ _ XK ST JX) as (bs & B & JR & D & KD).
    assert (RC : In (g_now s, GAt (Some i) (ORecv bs)) (tr ++ gstamp (g_now s) (flat_map (lift (Some i) (g_d s)) xs ++ o2))).
    { apply stamped_in. apply in_or_app. left. apply in_flat_map. exists (ORecv bs). split; [exact JR|left; reflexivity]. }
    unfold heard in J. destruct (node_of i (d_conns (g_d s))) as [n'|] eqn:NO; [|discriminate]. injection J as <- <- EE EC <-.
    assert (M : exists ip, made_to n' i ip (tr ++ gstamp (g_now s) (flat_map (lift (Some i) (g_d s)) xs ++ o2))).
    { assert (M : made n' i tr); [|destruct (made_made_to _ _ _ _ _ X M) as (ip & M'); exists ip; apply made_to_app; exact M']. apply (L3 _ _ (exec_linv _ _ _ _ X)). unfold node_of in NO. destruct (find _ _) as [[a b]|] eqn:F; [|discriminate]. apply find_some in F as [F1 F2]. cbn in F2. apply Nat.eqb_eq in F2. injection NO as ->. subst b. exact F1. }
    destruct M as (ip & M). exists ip. destruct (is_msg m_Zip_ZipPacket m) eqn:Z.
    + destruct (is_msg_true _ _ _ zip_in B D Z) as (dd & ->). rewrite CO in EC. destruct (command_whole _ _ _ _ B D EC) as (q & SE & ZF). rewrite SE in EE. subst ep. cbn in EP. injection EP as <-. rewrite CO. eapply GO_link; eassumption.
    + subst ep m. injection EP as <-. destruct KD as [KD|KD]; [congruence|]. destruct (is_msg_true _ _ _ adv_in B D KD) as (dd & ->). eapply GO_advert; [exact RC|exact M|reflexivity|exact D|reflexivity|reflexivity].
  - exfalso. destruct (nth_error (g_tasks s) t) as [[c0 [w fs|]]|]; try discriminate. destruct w as [|l0|]; try discriminate.
    + destruct (conn_at l0 (g_d s)) as [k|]; [|discriminate]. match type of E with Some ?x = Some ?y => assert (E2 : x = y) by congruence end. exact (WK _ _ _ _ _ _ _ E2 J).
    + match type of E with Some ?x = Some ?y => assert (E2 : x = y) by congruence end. exact (WK _ _ _ _ _ _ _ E2 J).
  - destruct (forallb is_byte bs) eqn:FB; [|discriminate]. assert (B : bytes_ok bs). { apply Forall_forall. intros x Jx. rewrite forallb_forall in FB. specialize (FB x Jx). unfold is_byte in FB. lia. }
    assert (JU : exists os0 o, unsolicited bs addr (g_d s) = (os0, o) /\ In (GTold l n ep c fl) os0 /\ In (GPacket bs addr) os).
    { destruct (unsolicited bs addr (g_d s)) as [os0 [nodes|]]; exists os0; eexists; (split; [reflexivity|]).
      - destruct (spawn ord (GReport nodes) s) as [s2 o2] eqn:S. injection E as <- <-. split; [|left; reflexivity]. destruct J as [J|J]; [discriminate|]. apply in_app_or in J as [J|J]; [exact J|elim (SP _ _ _ _ S J)].
      - injection E as <- <-. split; [|left; reflexivity]. destruct J as [J|J]; [discriminate|exact J]. }
    destruct JU as (os0 & o & U & JU & JP). unfold unsolicited in U. destruct (decode bs) as [m|ee] eqn:D; [|injection U as <- <-; destruct JU as [JU|[]]; discriminate]. destruct addr as [a|]; [|injection U as <- <-; destruct JU as [JU|[]]; discriminate].
    destruct (is_msg m_NetworkManagementProxy_NodeListReport _); [injection U as <- <-; destruct JU|]. destruct (from_ip a (d_nodes (g_d s))) as [n'|] eqn:FI; [|injection U as <- <-; destruct JU as [JU|[]]; discriminate].
    assert (TE : GTold None n' (getattr m "sourceEP") (getattr m "command") (getattr m "headerExtension") = GTold l n ep c fl).
    { destruct (truthy _); [|injection U as <- <-; destruct JU as [JU|[]]; exact JU]. destruct (is_msg _ _); [|injection U as <- <-; destruct JU as [JU|[]]; discriminate].
      destruct (bind _ _) as [rs|?]; injection U as <- <-; [destruct JU as [JU|[JU|[]]]; [discriminate|exact JU]|destruct JU as [JU|[]]; discriminate]. }
    injection TE as <- <- SE SC <-. rewrite <- SE in EP. destruct (sourced_zip _ _ _ B D EP) as (dd & ->). rewrite CO in SC. destruct (command_whole _ _ _ _ B D SC) as (q & SQ & ZF). rewrite SQ in EP. injection EP as <-. rewrite CO.
    unfold from_ip in FI. destruct (find _ _) as [[x v]|] eqn:F; [|discriminate]. apply find_some in F as [F1 F2]. cbn in F2. destruct v; try discriminate. apply Z.eqb_eq in F2. injection FI as ->. subst z.
    destruct (Fi1 _ _ (exec_finv _ _ _ X) _ _ F1) as (k' & t & JF). eexists. eapply GO_unsol; [apply stamped_in; exact JP|apply in_or_app; left; exact JF|exact ZF].
Qed.
End From.
