(** connect() (C115). *)
From Coq Require Import String ZArith List Bool Lia.
From Verif Require Import Py BitStream Schema Registry Codec SpecBits BitLemmas SpecWire CodecProofs Waiter Conn SpecConn ConnLemmas ConnInv ConnCases ConnCut NodeProofs
  Gateway SpecGateway SpecConnect GatewayProofs GatewayLinks GatewayStory GatewayMode GatewayIp GatewayTable.
Import ListNotations.
Open Scope list_scope.
Open Scope string_scope.
Open Scope list_scope.
Open Scope Z_scope.

Definition dest_c : call := CSend dest_msg 0 0 3000.
Lemma dest_ok : destination dest_c. Proof. exists dest_msg. split; [vm_compute; reflexivity|reflexivity]. Qed.
Definition list_m (k : Z) : val := VObj (CMsg m_NetworkManagementProxy_NodeListGet) [("seqNo", VI false 1 k)].
Definition list_c (k : Z) : call := CSendRecv (list_m k) 0 0 (s_hid m_NetworkManagementProxy_NodeListReport) 3000.
Local Ltac same_ty := let a := fresh in let I := fresh in let N := fresh in intros a I N; revert N; cbn in I;
  repeat (destruct I as [<-|I]; [cbn; intros N; first [discriminate N|reflexivity]|]); contradiction I.
Lemma list_ok k : list_get (list_c k).
Proof.
  exists (list_m k), k. split; [|reflexivity]. unfold byte. intros B.
  assert (A : args m_NetworkManagementProxy_NodeListGet [("seqNo", VInt k)] (s_attrs m_NetworkManagementProxy_NodeListGet) (nbits 8 k ++ [])).
  { cbn [s_attrs m_NetworkManagementProxy_NodeListGet]. eapply AR_set; [reflexivity|reflexivity|apply AB_int; cbn; lia|same_ty|]. apply AR_nil. }
  destruct (new_msg_compose m_NetworkManagementProxy_NodeListGet _ _ ltac:(in_registry) A) as (v & bs & E1 & E2 & B2 & E3). change (Ok (list_m k) = Ok v) in E1. injection E1 as <-. rewrite E2. f_equal.
  apply bits_of_inj; [exact B2|repeat (constructor; [lia|]); constructor|exact E3].
Qed.
Local Ltac arg := first [apply AB_int|apply AB_ub|apply AB_bits|apply AB_res|apply AB_flag|apply AB_bytes|apply AB_ip]; try (cbn; lia).
Local Ltac all_args := repeat first [ eapply AR_set; [reflexivity|reflexivity|arg|same_ty|] | eapply AR_unset; [reflexivity|cbn [a_ty]; apply DB_res|] ]; try apply AR_nil.
Lemma solicit_err n e : solicit n = Err e -> ~ byte n.
Proof.
  unfold solicit, byte. intros S B.
  eassert (A : args m_ZipND_ZipInvNodeSolicitation [("local", VBool false); ("nodeId", VInt n)] (s_attrs m_ZipND_ZipInvNodeSolicitation) _) by (cbn [s_attrs m_ZipND_ZipInvNodeSolicitation]; all_args).
  destruct (new_msg_encodes m_ZipND_ZipInvNodeSolicitation _ _ ltac:(in_registry) A) as (d & E & EN & _). rewrite E in S. cbn [bind] in S.
  destruct (proj1 EncodeProofs.compose_all _ _ EN) as (_ & bs' & C & _). rewrite C in S. discriminate S.
Qed.
Lemma sub_none t c d d' os a : sub t None c d = (d', os, a) -> d_nodes d' = d_nodes d /\ exists u, filter (mine t) os = [GSub t None u c] /\ (a = AWait (AwCall None u) [] \/ exists e, a = ARet (Err e) /\ sending c = true).
Proof.
  intros E. pose proof (keeps_sub t None c d) as (K & _). rewrite E in K. split; [exact K|]. destruct (sub_mine _ _ _ _ _ _ _ E) as [(_ & _ & i & H)|H]; [discriminate|exact H].
Qed.
Lemma result_val r0 v : of_result r0 = Ok v -> exists x, v = GV x. Proof. destruct r0; cbn; intros [= <-]; eauto. Qed.

Lemma dget_keys (T : list (Z * val)) m : dget Z.eqb m T <> None <-> In m (map fst T).
Proof.
  induction T as [|[k v] T IH]; cbn; [tauto|]. destruct (Z.eqb_spec m k) as [->|NE]; [split; [auto|discriminate]|]. rewrite IH. split; [auto|]. intros [E|H]; [congruence|exact H].
Qed.
Lemma dget_fresh l m : dget Z.eqb m (map (fun x => (x, VNone)) l) = if existsb (Z.eqb m) l then Some VNone else None.
Proof. induction l as [|x l IH]; [reflexivity|]. cbn. destruct (Z.eqb m x); [reflexivity|exact IH]. Qed.

Section Connect.
Variable ord : list Z -> list Z.
Variable others : Prop.
Variable t : nat.
Hypothesis ITER : others \/ iterates ord.
Notation all := (connecting others ord t).
Definition R5 (v : gval) : piece := match v with GV (VNodeList l) => looking others t (ord l) | _ => fun _ _ => False end.
Definition R4 : piece := andthen (listing t) R5.
Definition R3 : piece := andthen (fun h r => exists c, destination c /\ calling t c h r) (fun _ => R4).
Definition R2 : piece := andthen (awaits t AwListen) (fun _ => R3).
Definition R1 : piece := andthen (mode_run t 1 3000) (fun _ => R2).
(** what was done so far, if [R] is what is left *)
Definition sofar (R : piece) (h0 : list gobs) : Prop := forall h r, R h r -> all (h0 ++ h) r.
Lemma sofar_ok A B h0 h1 v : sofar (andthen A B) h0 -> A h1 (Ok v) -> sofar (B v) (h0 ++ h1).
Proof. intros S H h r K. rewrite <- app_assoc. apply S. right. exists h1, h, v. auto. Qed.
Lemma sofar_err A B h0 h1 e : sofar (andthen A B) h0 -> A h1 (Err e) -> all (h0 ++ h1) (Err e).
Proof. intros S H. apply S. left. eauto. Qed.
Lemma sofar_0 : sofar all []. Proof. intros h r H. exact H. Qed.

(** the table: [T0] is the one before; the nodes in [done] were looked at *)
Definition tbl (T0 : list (Z * val)) (l done : list Z) (h : list gobs) (T : list (Z * val)) : Prop := others \/
  ((forall m, dget Z.eqb m T <> None <-> In m l) /\ (forall m ip, dget Z.eqb m T = Some ip -> truthy ip = true -> dget Z.eqb m T0 = Some ip \/ In (GFound t m ip) h) /\
   (forall m, In m done -> exists ip, dget Z.eqb m T = Some ip /\ ((truthy ip = true /\ dget Z.eqb m T0 = Some ip) \/ In (GFound t m ip) h))).
Lemma tbl_app T0 l done h h' T : tbl T0 l done h T -> tbl T0 l done (h ++ h') T.
Proof.
  intros [O|(A & B & C)]; [left; exact O|right]. split; [exact A|]. split.
  - intros m ip G TR. destruct (B _ _ G TR) as [H|H]; [auto|right; apply in_or_app; auto].
  - intros m J. destruct (C _ J) as (ip & G & [H|H]); exists ip; (split; [exact G|]); [auto|right; apply in_or_app; auto].
Qed.
Definition asking (n : Z) (u : nat) (h : list gobs) : Prop := exists bs sent, (byte n -> bs = [88; 4; 0; n]) /\ h = [GAsk t n bs sent; GSub t None u (CWait advert 3000)].
(** where the list comes from *)
Definition source (T0 : list (Z * val)) (hl : list gobs) (l : list Z) : Prop := listing t hl (Ok (GV (VNodeList l))) /\ (others \/ (hl = [] /\ T0 <> [] /\ l = map fst T0) \/ (hl <> [] /\ T0 = [])).
Definition mid (T0 : list (Z * val)) (l : list Z) (hp hl h1 : list gobs) (done : list Z) (T : list (Z * val)) : Prop :=
  sofar (R5 (GV (VNodeList l))) (hp ++ hl) /\ source T0 hl l /\ looked t done h1 /\ tbl T0 l done (hp ++ hl ++ h1) T.
Definition final (T0 T : list (Z * val)) (h : list gobs) : Prop := exists l hp hl h1, h = hp ++ hl ++ h1 /\ source T0 hl l /\ looked t (ord l) h1 /\ tbl T0 l (ord l) h T.
Definition inv (T0 T : list (Z * val)) (p : gpc) (h : list gobs) : Prop :=
  match p with
  | GWait w fs =>
      (w = AwOpen None /\ fs = [FConnect1] /\ h = [] /\ (others \/ T = T0)) \/
      (exists h0 u, w = AwCall None u /\ fs = [FMode 1; FConnect2] /\ h = h0 ++ [GSub t None u (get_c 3000)] /\ sofar R1 h0 /\ (others \/ T = T0)) \/
      (exists h0 u u' rep, w = AwCall None u' /\ fs = [FModeSet; FConnect2] /\ h = h0 ++ [GSub t None u (get_c 3000); GBack t (AwCall None u) (Ok (GV rep)); GSub t None u' (set_call 1)] /\
         mode_of rep <> Some 1 /\ sofar R1 h0 /\ (others \/ T = T0)) \/
      (w = AwListen /\ fs = [FListen] /\ sofar R2 h /\ (others \/ T = T0)) \/
      (exists h0 u, w = AwCall None u /\ fs = [FDest] /\ h = h0 ++ [GSub t None u dest_c] /\ sofar R3 h0 /\ (others \/ T = T0)) \/
      (exists h0 u k, w = AwCall None u /\ fs = [FList; FSetup] /\ h = h0 ++ [GSub t None u (list_c k)] /\ sofar R4 h0 /\ (others \/ (T = T0 /\ T0 = []))) \/
      (exists l hp hl h1 h2 done n rest u, w = AwCall None u /\ fs = [FIp n; FSetupIp n rest] /\ h = hp ++ hl ++ h1 ++ h2 /\ ord l = done ++ n :: rest /\ asking n u h2 /\ mid T0 l hp hl h1 done T)
  | GDone r => exists h', h = h' ++ [GRet t r] /\ all h' r /\ forall v, r = Ok v -> final T0 T h'
  end.
(** what a step adds to the history of the task *)
Definition after (T0 : list (Z * val)) (h : list gobs) (g : go) : Prop := inv T0 (d_nodes (gd g)) (pc_of (snd g)) (h ++ filter (mine t) (gos g) ++ said t (snd g)).
Lemma looked_skip done h n : looked t done h -> looked t (done ++ [n]) h. Proof. apply LO_skip. Qed.
Lemma after_loop T0 l hp hl h1 : forall ns done d, ord l = done ++ ns -> mid T0 l hp hl h1 done (d_nodes d) -> after T0 (hp ++ hl ++ h1) (setup_loop t ns d).
Proof.
  induction ns as [|n ns IH]; intros done d E (S & SO & L & TB); cbn [setup_loop].
  - unfold after. cbn [ret gd gos fst snd pc_of said inv filter app]. exists (hp ++ hl ++ h1). split; [reflexivity|]. rewrite app_nil_r in E. rewrite <- E in *. split.
    + rewrite app_assoc. apply S. left. auto.
    + intros v _. exists l, hp, hl, h1. auto.
  - destruct (dget Z.eqb n (d_nodes d)) as [ip|] eqn:G.
    + destruct (truthy ip) eqn:TR.
      * apply (IH (done ++ [n])); [rewrite <- app_assoc; exact E|]. split; [exact S|]. split; [exact SO|]. split; [apply LO_skip; exact L|]. destruct TB as [O|(A & B & C)]; [left; exact O|right]. split; [exact A|]. split; [exact B|].
        intros m J. apply in_app_or in J as [J|[<-|[]]]; [exact (C _ J)|]. exists ip. split; [exact G|]. destruct (B _ _ G TR) as [H|H]; auto.
      * unfold start_ip. destruct (solicit n) as [bs|e] eqn:SOL.
        -- destruct (sub t None (CWait adv_hid 3000) d) as [[d1 o1] a1] eqn:SB. destruct (sub_none _ _ _ _ _ _ SB) as (DN & u & F & [->|(e & _ & H)]); [|discriminate].
           unfold after. cbn [under gd gos fst snd pc_of said app filter mine task_of]. rewrite Nat.eqb_refl, F, DN. cbn [inv].
           right. right. right. right. right. right. exists l, hp, hl, h1, [GAsk t n bs (c_up (d_c d)); GSub t None u (CWait advert 3000)], done, n, ns, u. split; [reflexivity|]. split; [reflexivity|]. split; [rewrite <- !app_assoc; reflexivity|].
           split; [exact E|]. split; [exists bs, (c_up (d_c d)); split; [exact (solicit_bytes _ _ SOL)|reflexivity]|]. split; [exact S|]. auto.
        -- unfold after. cbn [ret under gd gos fst snd pc_of said app filter inv]. exists (hp ++ hl ++ h1). split; [reflexivity|]. split; [|intros v H; discriminate H].
           rewrite app_assoc. apply S. right. exists done, n, ns, h1, [], e. split; [exact E|]. split; [rewrite app_nil_r; reflexivity|]. split; [exact L|]. split; [reflexivity|]. right. left. split; [reflexivity|]. exact (solicit_err _ _ SOL).
    + unfold after. cbn [ret gd gos fst snd pc_of said app filter inv]. exists (hp ++ hl ++ h1). split; [reflexivity|]. split; [|intros v H; discriminate H].
      rewrite app_assoc. apply S. right. exists done, n, ns, h1, [], EKey. split; [exact E|]. split; [rewrite app_nil_r; reflexivity|]. split; [exact L|]. split; [reflexivity|]. right.
      destruct TB as [O|(A & _)]; [right; auto|]. destruct ITER as [O|IT]; [right; auto|]. exfalso. apply (proj2 (A n)); [|exact G]. apply IT. rewrite E. apply in_or_app. right. left. reflexivity.
Qed.
(** the list was read: the addresses are looked up *)
Lemma after_nodes T0 h0 hl l d : sofar R4 h0 -> source T0 hl l -> (others \/ forall m, dget Z.eqb m (d_nodes d) <> None <-> In m l) ->
  (others \/ forall m ip, dget Z.eqb m (d_nodes d) = Some ip -> truthy ip = true -> dget Z.eqb m T0 = Some ip) -> after T0 (h0 ++ hl) (setup_nodes ord t (Ok (GV (VNodeList l))) d).
Proof.
  intros S SO A B. cbn [setup_nodes]. rewrite <- (app_nil_r hl). apply (after_loop T0 l h0 hl [] (ord l) []); [reflexivity|]. split; [exact (sofar_ok _ _ _ _ _ S (proj1 SO))|]. split; [exact SO|]. split; [constructor|].
  destruct A as [O|A]; [left; exact O|]. destruct B as [O|B]; [left; exact O|]. right. split; [exact A|]. split; [intros m ip G TR; left; exact (B _ _ G TR)|intros m []].
Qed.
Lemma after_shift T0 (h h' : list gobs) (d : gdata) os (a : act) : after T0 (h ++ h') (d, os, a) -> forall os', filter (mine t) os' = h' -> after T0 h (d, os' ++ os, a).
Proof. unfold after. cbn [gd gos fst snd]. intros H os' <-. rewrite filter_app, <- app_assoc. rewrite <- app_assoc in H. exact H. Qed.
Lemma after_raise T0 h e (d : gdata) os : all (h ++ filter (mine t) os) (Err e) -> after T0 h (d, os, ARet (Err e)).
Proof. intros H. unfold after. cbn [gd gos fst snd pc_of said inv]. eexists. split; [rewrite app_assoc; reflexivity|]. split; [exact H|]. intros v E. discriminate E. Qed.
Lemma unwind_cons r f fs d : unwind ord t r (f :: fs) d = match frame_step ord t f r d with
  | (d', os, AWait w gs) => (d', os, AWait w (gs ++ fs)) | (d', os, ARet r') => match unwind ord t r' fs d' with (d'', os', a) => (d'', os ++ os', a) end end.
Proof. reflexivity. Qed.
Lemma after_listen T0 h d : sofar R2 h -> (others \/ d_nodes d = T0) -> after T0 h (d, [], AWait AwListen [FListen]).
Proof. intros S TE. unfold after. cbn [gd gos fst snd pc_of said filter app inv]. rewrite app_nil_r. right. right. right. left. auto. Qed.
(** the end of setGatewayMode *)
Lemma after_mode T0 h0 h1 r d : sofar R1 h0 -> mode_run t 1 3000 h1 r -> (others \/ d_nodes d = T0) -> after T0 (h0 ++ h1) (unwind ord t r [FConnect2] d).
Proof.
  intros S M TE. destruct r as [v|e].
  - cbn [unwind frame_step app]. apply after_listen; [exact (sofar_ok _ _ _ _ _ S M)|exact TE].
  - rewrite unwind_cons. replace (frame_step ord t FConnect2 (Err e) d) with (ret (Err e) d) by (destruct e; reflexivity). apply after_raise. cbn. rewrite app_nil_r. exact (sofar_err _ _ _ _ _ S M).
Qed.
Lemma after_wake T0 w fs r d h pre : inv T0 (d_nodes d) (GWait w fs) h -> back w r pre -> after T0 (h ++ [GBack t w r]) (unwind ord t r fs d).
Proof.
  cbn [inv]. intros [H|[H|[H|[H|[H|[H|H]]]]]] BK.
  - destruct H as (-> & -> & -> & TE). cbn [app]. destruct r as [v|e].
    + assert (S : sofar R1 [GBack t (AwOpen None) (Ok v)]) by (apply (sofar_ok _ _ [] _ v sofar_0); reflexivity). clear BK.
      rewrite unwind_cons. cbn [frame_step]. unfold start_mode. fold (get_c 3000). destruct (sub t None (get_c 3000) d) as [[d1 o1] a1] eqn:SB. destruct (sub_none _ _ _ _ _ _ SB) as (DN & u & F & [->|(e & -> & _)]); cbn [under ret app].
      * unfold after. cbn [gd gos fst snd pc_of said app inv]. rewrite DN, F. right. left. exists [GBack t (AwOpen None) (Ok v)], u. split; [reflexivity|]. split; [reflexivity|]. split; [reflexivity|]. auto.
      * cbn [unwind ret app]. apply after_raise. rewrite !app_nil_r, F. apply (sofar_err _ _ _ _ _ S). apply MR_raise. apply get_ok.
    + rewrite unwind_cons. replace (frame_step ord t FConnect1 (Err e) d) with (ret (Err e) d) by (destruct e; reflexivity). apply after_raise. apply (sofar_err _ _ [] _ e sofar_0). reflexivity.
  - destruct H as (h0 & u & -> & -> & -> & S & TE). destruct BK as (r0 & -> & _). rewrite <- app_assoc. cbn [app]. destruct (of_result r0) as [v|e] eqn:R.
    + destruct (result_val _ _ R) as (rep & ->). rewrite unwind_cons. cbn [frame_step]. destruct (is_mode rep 1) eqn:M.
      * cbn [ret]. apply (after_mode T0 h0 _ (Ok (GV (VBool true))) d S); [|exact TE]. apply MR_same; [apply get_ok|apply is_mode_spec; exact M].
      * assert (NM : mode_of rep <> Some 1) by (rewrite <- is_mode_spec; congruence). change (new_msg m_ZipGateway_GatewayModeSet [("mode", VInt 1)]) with (Ok (set_m 1)). cbv iota. fold (set_call 1).
        destruct (sub t None (set_call 1) d) as [[d1 o1] a1] eqn:SB. destruct (sub_none _ _ _ _ _ _ SB) as (DN & u' & F & [->|(e & -> & _)]); cbn [under ret app].
        -- unfold after. cbn [gd gos fst snd pc_of said app inv]. rewrite DN, F. right. right. left. exists h0, u, u', rep. split; [reflexivity|]. split; [reflexivity|]. split; [rewrite <- app_assoc; reflexivity|]. auto.
        -- pose proof (after_mode T0 h0 [GSub t None u (get_c 3000); GBack t (AwCall None u) (Ok (GV rep)); GSub t None u' (set_call 1)] (Err e) d1 S) as Q. cbv zeta in *.
           destruct (unwind ord t (Err e) [FConnect2] d1) as [[d2 o2] a2]. rewrite app_nil_r. eapply after_shift; [|exact F]. rewrite <- app_assoc. cbn [app]. apply Q; [|rewrite DN; exact TE]. apply MR_unsent; [apply get_ok|exact NM|apply set_ok].
    + rewrite unwind_cons. replace (frame_step ord t (FMode 1) (Err e) d) with (ret (if exn_eqb e ETimeout then Ok (GV (VBool false)) else Err e) d) by (rewrite timeout_spec; destruct e; reflexivity). cbn [ret].
      pose proof (after_mode T0 h0 [GSub t None u (get_c 3000); GBack t (AwCall None u) (Err e)] (if exn_eqb e ETimeout then Ok (GV (VBool false)) else Err e) d S) as Q. destruct (unwind ord t _ [FConnect2] d) as [[d2 o2] a2]. cbn [app]. apply Q; [|exact TE]. apply MR_fail. apply get_ok.
  - destruct H as (h0 & u & u' & rep & -> & -> & -> & NM & S & TE). destruct BK as (r0 & -> & _). rewrite <- app_assoc. cbn [app]. set (r1 := match of_result r0 with Ok _ => Ok (GV (VBool true)) | Err e => if exn_eqb e ETimeout then Ok (GV (VBool false)) else Err e end).
    rewrite unwind_cons. replace (frame_step ord t FModeSet (of_result r0) d) with (ret r1 d) by (unfold r1; destruct (of_result r0) as [v|e]; [reflexivity|rewrite timeout_spec; destruct e; reflexivity]). cbn [ret].
    pose proof (after_mode T0 h0 [GSub t None u (get_c 3000); GBack t (AwCall None u) (Ok (GV rep)); GSub t None u' (set_call 1); GBack t (AwCall None u') (of_result r0)] r1 d S) as Q.
    destruct (unwind ord t r1 [FConnect2] d) as [[d2 o2] a2]. cbn [app]. apply Q; [|exact TE]. apply MR_set; [apply get_ok|exact NM|apply set_ok].
  - destruct H as (-> & -> & S & TE). destruct r as [v|e].
    + assert (S3 : sofar R3 (h ++ [GBack t AwListen (Ok v)])) by (apply (sofar_ok _ _ _ _ v S); reflexivity). rewrite unwind_cons. cbn [frame_step]. fold dest_c. destruct (sub t None dest_c d) as [[d1 o1] a1] eqn:SB.
      destruct (sub_none _ _ _ _ _ _ SB) as (DN & u & F & [->|(e & -> & _)]); cbn [under ret app].
      * unfold after. cbn [gd gos fst snd pc_of said app inv]. rewrite DN, F. right. right. right. right. left. exists (h ++ [GBack t AwListen (Ok v)]), u. split; [reflexivity|]. split; [reflexivity|]. split; [reflexivity|]. auto.
      * cbn [unwind ret app]. apply after_raise. rewrite !app_nil_r, F. apply (sofar_err _ _ _ _ _ S3). exists dest_c. split; [apply dest_ok|]. exists u. left. eauto.
    + rewrite unwind_cons. replace (frame_step ord t FListen (Err e) d) with (ret (Err e) d) by (destruct e; reflexivity). cbn [unwind ret app]. apply after_raise. cbn [app filter]. rewrite app_nil_r. apply (sofar_err _ _ _ _ _ S). reflexivity.
  - destruct H as (h0 & u & -> & -> & -> & S & TE). clear BK. rewrite <- app_assoc. cbn [app].
    assert (D : exists c, destination c /\ calling t c [GSub t None u dest_c; GBack t (AwCall None u) r] r) by (exists dest_c; split; [apply dest_ok|]; exists u; auto).
    destruct r as [v|e]; rewrite unwind_cons.
    + pose proof (sofar_ok _ _ _ _ _ S D) as S4. set (h4 := h0 ++ _) in *. clearbody h4. cbn [frame_step]. unfold start_list. destruct (d_nodes d) as [|x T] eqn:T'.
      * cbv zeta. set (k := d_nm d + 1). change (new_msg m_NetworkManagementProxy_NodeListGet [("seqNo", VInt k)]) with (Ok (list_m k)). cbv iota. fold (list_c k).
        destruct (sub t None (list_c k) (set_nm k d)) as [[d1 o1] a1] eqn:SB. destruct (sub_none _ _ _ _ _ _ SB) as (DN & u' & F & [->|(e & -> & _)]); cbn [under ret app].
        -- unfold after. cbn [gd gos fst snd pc_of said app inv]. rewrite DN, F. right. right. right. right. right. left. exists h4, u', k. split; [reflexivity|]. split; [reflexivity|]. split; [reflexivity|]. split; [exact S4|].
           destruct TE as [O|<-]; [left; exact O|right]. split; [exact T'|reflexivity].
        -- cbn [unwind ret app]. apply after_raise. rewrite !app_nil_r, F. apply (sofar_err _ _ _ _ _ S4). right. exists (list_c k), u'. split; [apply list_ok|]. left. eauto.
      * pose proof (after_nodes T0 h4 [] (map fst (d_nodes d)) d S4) as Q. rewrite T' in Q. cbn [ret under app]. destruct (setup_nodes ord t _ d) as [[d2 o2] a2]. assert (Z : forall a3, (match a3 with AWait w gs => (d2, o2, AWait w (gs ++ [])) | ARet r' => (d2, o2 ++ [], ARet r') end) = (d2, o2, a3)) by (intros [?|? ?]; rewrite app_nil_r; reflexivity).
        destruct a2 as [r2|w2 f2]; cbn [unwind ret]; rewrite app_nil_r; rewrite app_nil_r in Q; apply Q; try (right; rewrite <- T'; apply dget_keys); try (destruct TE as [O|TE]; [left; exact O|right; rewrite TE; auto]);
          (split; [left; split; [reflexivity|eauto]|]; destruct TE as [O|TE]; [left; exact O|right; left; split; [reflexivity|]; rewrite <- TE; split; [discriminate|reflexivity]]).
    + replace (frame_step ord t FDest (Err e) d) with (ret (Err e) d) by (destruct e; reflexivity). cbn [unwind ret app]. apply after_raise. cbn [app filter]. rewrite app_nil_r. exact (sofar_err _ _ _ _ _ S D).
  - destruct H as (h0 & u & k & -> & -> & -> & S & TE). destruct BK as (r0 & -> & _). rewrite <- app_assoc. cbn [app]. 
    assert (LI : listing t [GSub t None u (list_c k); GBack t (AwCall None u) (of_result r0)] (list_result (of_result r0))) by (right; exists (list_c k), u; split; [apply list_ok|]; right; eauto).
    assert (SRC : forall l, list_result (of_result r0) = Ok (GV (VNodeList l)) -> source T0 [GSub t None u (list_c k); GBack t (AwCall None u) (of_result r0)] l).
    { intros l E. rewrite E in LI. split; [exact LI|]. destruct TE as [O|(_ & E0)]; [left; exact O|]. right. right. split; [discriminate|exact E0]. }
    set (hl := [GSub _ _ _ _; _]) in *. clearbody hl. rewrite unwind_cons. destruct (of_result r0) as [v|e] eqn:R.
    + destruct (result_val _ _ R) as (rep & ->). cbn [frame_step list_result] in *. cbv zeta. set (d1 := set_ctl _ d). assert (DN : d_nodes d1 = d_nodes d) by reflexivity. clearbody d1.
      assert (K : (exists l, getattr rep "nodes" = VNodeList l) \/ forall A (x : list Z -> A) (y : A), match getattr rep "nodes" with VNodeList l => x l | _ => y end = y) by (destruct (getattr rep "nodes"); eauto). destruct K as [(l & GN)|GN].
      * rewrite GN in *. cbn [ret app]. set (d2 := set_nodes _ d1). pose proof (after_nodes T0 h0 hl l d2 S (SRC _ eq_refl)) as Q. rewrite unwind_cons. cbn [frame_step]. destruct (setup_nodes ord t _ d2) as [[d3 o3] a3].
        assert (Q' : after T0 (h0 ++ hl) (d3, o3, a3)).
        { apply Q; cbn [d2 set_nodes d_nodes].
          - destruct ITER as [O|IT]; [left; exact O|right]. intros m. rewrite dget_fresh. destruct (existsb (Z.eqb m) (ord l)) eqn:EX.
            + apply in_existsb in EX. split; [intros _; apply IT; exact EX|discriminate].
            + split; [congruence|]. intros J. apply IT, in_existsb in J. congruence.
          - right. intros m ip. rewrite dget_fresh. destruct (existsb (Z.eqb m) (ord l)); [|discriminate]. intros [= <-] H. discriminate H. }
        destruct a3 as [r3|w3 f3]; cbn [unwind ret]; rewrite ?app_nil_r; exact Q'.
      * rewrite GN in *. cbn [ret app unwind frame_step setup_nodes]. apply after_raise. cbn [app filter]. rewrite app_nil_r. exact (sofar_err _ _ _ _ _ S LI).
    + cbn [list_result] in *. replace (frame_step ord t FList (Err e) d) with (ret (if exn_eqb e ETimeout then Ok (GV (VNodeList [])) else Err e) d) by (rewrite timeout_spec; destruct e; reflexivity). destruct (exn_eqb e ETimeout).
      * cbn [ret app]. pose proof (after_nodes T0 h0 hl [] d S (SRC _ eq_refl)) as Q. rewrite unwind_cons. cbn [frame_step]. destruct (setup_nodes ord t _ d) as [[d3 o3] a3].
        assert (Q' : after T0 (h0 ++ hl) (d3, o3, a3)).
        { apply Q; (destruct TE as [O|(TE & TE0)]; [left; exact O|right]); rewrite TE, TE0; cbn; [tauto|discriminate]. }
        destruct a3 as [r3|w3 f3]; cbn [unwind ret]; rewrite ?app_nil_r; exact Q'.
      * cbn [ret app unwind frame_step setup_nodes]. apply after_raise. cbn [app filter]. rewrite app_nil_r. exact (sofar_err _ _ _ _ _ S LI).
  - destruct H as (l & hp & hl & h1 & h2 & done & n & rest & u & -> & -> & -> & E & (bs & sent & BY & ->) & S & SO & L & TB). destruct BK as (r0 & -> & _). rewrite <- !app_assoc. cbn [app].
    rewrite unwind_cons. destruct (of_result r0) as [v|e] eqn:R.
    + destruct (result_val _ _ R) as (m & ->). cbn [frame_step]. rewrite unwind_cons. cbn [frame_step]. set (ip := getattr m "ipv6"). set (d1 := set_nodes _ d).
      set (h3 := h1 ++ [GAsk t n bs sent; GSub t None u (CWait advert 3000); GBack t (AwCall None u) (Ok (GV m)); GFound t n ip]).
      assert (M : mid T0 l hp hl h3 (done ++ [n]) (d_nodes d1)).
      { split; [exact S|]. split; [exact SO|]. split.
        - eapply LO_ask; [exact L|]. exists bs, sent, u. split; [exact BY|]. right. exists m. split; reflexivity.
        - assert (FI : In (GFound t n ip) (hp ++ hl ++ h3)) by (unfold h3; rewrite !in_app_iff; cbn; tauto). apply (tbl_app _ _ _ _ [GAsk t n bs sent; GSub t None u (CWait advert 3000); GBack t (AwCall None u) (Ok (GV m)); GFound t n ip]) in TB.
          rewrite <- !app_assoc in TB. fold h3 in TB. destruct TB as [O|(A & B & C)]; [left; exact O|]. destruct ITER as [O|IT]; [left; exact O|]. right. cbn [d1 set_nodes d_nodes].
          assert (DG : forall m', dget Z.eqb m' (dset Z.eqb n ip (d_nodes d)) = if Z.eqb m' n then Some ip else dget Z.eqb m' (d_nodes d)) by (intros m'; apply dget_dset).
          split; [|split].
          + intros m'. rewrite DG. destruct (Z.eqb_spec m' n) as [->|NE]; [|apply A]. split; [intros _|discriminate]. apply IT. rewrite E. apply in_or_app. right. left. reflexivity.
          + intros m' ip' G TR. rewrite DG in G. destruct (Z.eqb_spec m' n) as [->|NE]; [injection G as <-; auto|exact (B _ _ G TR)].
          + intros m' J. destruct (Z.eqb_spec m' n) as [->|NE]; [exists ip; rewrite DG, Z.eqb_refl; auto|]. apply in_app_or in J as [J|[J|[]]]; [|congruence]. destruct (C _ J) as (ip' & G & H). exists ip'. rewrite DG. destruct (Z.eqb_spec m' n); [contradiction|auto]. }
      pose proof (after_loop T0 l hp hl h3 rest (done ++ [n]) d1 ltac:(rewrite <- app_assoc; exact E) M) as Q. destruct (setup_loop t rest d1) as [[d2 o2] a2].
      assert (Q' : after T0 (hp ++ hl ++ h1 ++ [GAsk t n bs sent; GSub t None u (CWait advert 3000); GBack t (AwCall None u) (Ok (GV m))]) (d2, [GFound t n ip] ++ o2, a2)).
      { eapply after_shift; [|cbn; rewrite Nat.eqb_refl; reflexivity]. rewrite <- !app_assoc. exact Q. }
      destruct a2 as [r3|w3 f3]; cbn [unwind ret]; rewrite ?app_nil_r; exact Q'.
    + replace (frame_step ord t (FIp n) (Err e) d) with (ret (Err e) d) by (destruct e; reflexivity). cbn [ret]. rewrite unwind_cons. replace (frame_step ord t (FSetupIp n rest) (Err e) d) with (ret (Err e) d) by (destruct e; reflexivity). cbn [unwind ret app].
      apply after_raise. cbn [app filter]. rewrite app_nil_r, app_assoc. apply S. right. exists done, n, rest, h1. eexists _, e. split; [exact E|]. split; [reflexivity|]. split; [exact L|]. split; [reflexivity|]. left.
      exists bs, sent, u. split; [exact BY|]. left. eauto.
Qed.
End Connect.

Section Runs.
Variable ord : list Z -> list Z.
Lemma inv_free (others : Prop) t T0 T T' p h : others -> inv ord others t T0 T p h -> inv ord others t T0 T' p h.
Proof.
  intros O. destruct p as [w fs|r]; cbn [inv].
  - intros [H|[H|[H|[H|[H|[H|H]]]]]].
    + left. tauto.
    + right. left. destruct H as (h0 & u & H). exists h0, u. tauto.
    + right. right. left. destruct H as (h0 & u & u' & rep & H). exists h0, u, u', rep. tauto.
    + right. right. right. left. tauto.
    + right. right. right. right. left. destruct H as (h0 & u & H). exists h0, u. tauto.
    + right. right. right. right. right. left. destruct H as (h0 & u & k & H). exists h0, u, k. tauto.
    + right. right. right. right. right. right. destruct H as (l & hp & hl & h1 & h2 & done & n & rest & u & A & B & C & D & E & S & SO & L & _). exists l, hp, hl, h1, h2, done, n, rest, u.
      repeat (split; [assumption|]). left. exact O.
  - intros (h' & A & B & C). exists h'. split; [exact A|]. split; [exact B|]. intros v E. destruct (C v E) as (l & hp & hl & h1 & D & SO & L & _). exists l, hp, hl, h1. repeat (split; [assumption|]). left. exact O.
Qed.
Lemma connect_story es s tr : gexec ord gw0 es s tr -> forall t c p, nth_error (g_tasks s) t = Some (mkGT c p) -> c = GConnect -> exists h, own t tr = GCalled t GConnect :: h /\ inv ord True t [] [] p h.
Proof.
  intros X. refine (proj1 (story ord (fun t c p h => c = GConnect -> exists h', h = GCalled t GConnect :: h' /\ inv ord True t [] [] p h') _ _ es s tr X)); clear.
  - intros t c d d' os a S ->. cbn [start] in S. injection S as <- <- <-. cbn [pc_of said filter app]. exists []. split; [reflexivity|]. left. auto.
  - intros t c w fs r d d' os a h pre H B U ->. destruct (H eq_refl) as (h' & -> & I). eexists. split; [reflexivity|].
    apply (inv_free _ _ _ _ (d_nodes d) _ _ Logic.I) in I. pose proof (after_wake ord True t (or_introl Logic.I) _ _ _ _ _ _ _ I B) as Q. rewrite U in Q. unfold after in Q. cbn [gd gos fst snd] in Q. rewrite <- app_assoc in Q.
    exact (inv_free _ _ _ _ _ _ _ Logic.I Q).
Qed.
Lemma connect_run es s tr t n n' r : gexec ord gw0 es s tr -> In (n, GCalled t GConnect) tr -> In (n', GRet t r) tr ->
  exists h, own t tr = GCalled t GConnect :: h ++ [GRet t r] /\ connecting True ord t h r.
Proof.
  intros X C R. destruct (called_call _ _ _ _ _ _ _ X C) as (p & E). destruct (returned_done _ _ _ _ _ _ _ X R) as (c & E'). rewrite E in E'. injection E' as <- ->.
  destruct (connect_story _ _ _ X _ _ _ E eq_refl) as (h & O & h' & -> & A & _). eauto.
Qed.

Hypothesis ITER : iterates ord.
Lemma solo s1 es s b t : gexec ord s1 es s b -> forall es1 a, gexec ord gw0 es1 s1 a -> (length (g_tasks s1) <= t)%nat -> undisturbed t (a ++ b) b ->
  (nth_error (g_tasks s) t = None -> d_nodes (g_d s) = d_nodes (g_d s1) /\ own t b = []) /\
  forall p, nth_error (g_tasks s) t = Some (mkGT GConnect p) -> exists h, own t b = GCalled t GConnect :: h /\ inv ord False t (d_nodes (g_d s1)) (d_nodes (g_d s)) p h.
Proof.
  intros Y es1 a X LT. induction Y as [|es s b e s' os Y IH ST]; intros UD.
  - split; [auto|]. intros p N. apply nth_lt in N. lia.
  - pose proof (gexec_app _ _ _ _ _ _ _ _ X Y) as XY. pose proof (gexec_app _ _ _ _ _ _ _ _ X (GX_snoc _ _ _ _ _ _ _ _ Y ST)) as XY'.
    assert (UD0 : undisturbed t (a ++ b) b) by (intros k o t' k' c J1 J2 J3 J4; apply (UD k o t' k' c); [apply in_or_app; auto|exact J2|exact J3|rewrite app_assoc; apply in_or_app; auto]).
    destruct (IH UD0) as [I1 I2]. set (n0 := g_now s) in *.
    assert (OTHER : forall t' c p, nth_error (g_tasks s') t' = Some (mkGT c p) -> (exists o, In o os /\ task_of o = Some t') -> t' <> t -> touches c = false).
    { intros t' c p N (o & J & T) NE. destruct (task_called _ _ _ _ _ _ _ XY' N) as (k' & C). apply (UD n0 o t' k' c); [apply in_or_app; right; apply in_map; exact J|exact T|exact NE|exact C]. }
    assert (OW : own t (b ++ gstamp n0 os) = own t b ++ filter (mine t) os) by (rewrite own_app, own_stamp; reflexivity). rewrite OW. clear OW.
    destruct (step_case _ _ _ _ _ ST) as [e s' os ET (_ & _ & SN & _) NT|e c d os a0 pre S NT ?|e t' c w fs r d1 d os a0 pre EN (_ & _ & SN & _) BK NT EU].
    + rewrite (mine_no_task _ _ NT), app_nil_r, ET, SN. split; [exact I1|exact I2].
    + cbn [g_tasks g_d] in *. destruct (Nat.eq_dec t (length (g_tasks s))) as [E|NE].
      * assert (NN : nth_error (g_tasks s) t = None) by (apply nth_error_None; lia). destruct (I1 NN) as [A B]. rewrite nth_snoc, <- E, Nat.eqb_refl. split; [discriminate|]. intros p N. injection N as -> <-.
        rewrite <- E in S. cbn [start] in S. injection S as <- <- <-. rewrite B, filter_app, (mine_no_task _ _ NT). cbn. rewrite Nat.eqb_refl. exists []. split; [reflexivity|]. left. rewrite A. auto.
      * assert (T : touches c = false).
        { apply (OTHER (length (g_tasks s)) c (pc_of a0)); [rewrite nth_snoc, Nat.eqb_refl; reflexivity| |congruence]. eexists. split; [apply in_or_app; right; left; reflexivity|reflexivity]. }
        pose proof (keeps_start ord (length (g_tasks s)) c (g_d s) T) as (K1 & _ & _). rewrite S in K1. cbn in K1. rewrite K1.
        assert (Z : filter (mine t) (pre ++ GCalled (length (g_tasks s)) c :: os ++ said (length (g_tasks s)) a0) = []).
        { rewrite filter_app, (mine_no_task _ _ NT). cbn. destruct (Nat.eqb_spec (length (g_tasks s)) t); [congruence|]. rewrite filter_app, (mine_ours _ _ _ NE (start_ours _ _ _ _ _ _ _ S)), (mine_said _ _ _ NE). reflexivity. }
        rewrite Z, app_nil_r, nth_snoc. destruct (Nat.eqb_spec t (length (g_tasks s))); [contradiction|]. split; [exact I1|exact I2].
    + cbn [g_tasks g_d] in *. destruct (Nat.eq_dec t t') as [<-|NE].
      * rewrite (nth_upd_same _ _ _ _ EN). split; [discriminate|]. intros p N. injection N as -> <-. destruct (I2 _ EN) as (h & OH & IV). rewrite <- SN in IV.
        rewrite OH, filter_app, (mine_no_task _ _ NT). cbn. rewrite Nat.eqb_refl, filter_app, mine_said_same. eexists. split; [reflexivity|].
        pose proof (after_wake ord False t (or_intror ITER) _ _ _ _ _ _ _ IV BK) as Q. rewrite EU in Q. unfold after in Q. cbn [gd gos fst snd] in Q. rewrite <- app_assoc in Q. exact Q.
      * assert (T : touches c = false).
        { apply (OTHER t' c (pc_of a0)); [rewrite (nth_upd_same _ _ _ _ EN); reflexivity| |congruence]. eexists. split; [apply in_or_app; right; left; reflexivity|reflexivity]. }
        pose proof (keeps_unwind ord t' fs (still_story _ _ _ _ XY _ _ _ _ EN T) r d1) as (K1 & _ & _). rewrite EU in K1. cbn in K1. rewrite K1, SN.
        assert (Z : filter (mine t) (pre ++ GBack t' w r :: os ++ said t' a0) = []).
        { rewrite filter_app, (mine_no_task _ _ NT). cbn. destruct (Nat.eqb_spec t' t); [congruence|]. rewrite filter_app, (mine_ours _ _ _ NE (unwind_ours _ _ _ _ _ _ _ _ EU)), (mine_said _ _ _ NE). reflexivity. }
        rewrite Z, app_nil_r, nth_upd_other by congruence. split; [exact I1|exact I2].
Qed.
Lemma connect_table es1 s1 a es s b t k k' r : gexec ord gw0 es1 s1 a -> gexec ord s1 es s b -> undisturbed t (a ++ b) b -> In (k, GCalled t GConnect) b -> In (k', GRet t r) b ->
  exists h, own t b = GCalled t GConnect :: h ++ [GRet t r] /\ connecting False ord t h r /\
    forall v, r = Ok v -> exists l before hl hk, h = before ++ hl ++ hk /\ listing t hl (Ok (GV (VNodeList l))) /\ looked t (ord l) hk /\
      (hl = [] -> (exists n, known s1 n <> None) /\ forall n, In n l <-> known s1 n <> None) /\ (hl <> [] -> forall n, known s1 n = None) /\
      (forall n, known s n <> None <-> In n l) /\
      forall n, In n l -> exists ip, known s n = Some ip /\ ((truthy ip = true /\ known s1 n = Some ip) \/ In (GFound t n ip) h).
Proof.
  intros X Y UD C R. pose proof (gexec_app _ _ _ _ _ _ _ _ X Y) as XY. destruct (exec_grow _ _ _ _ _ Y) as [_ LT]. specialize (LT _ _ _ C). destruct (solo _ _ _ _ t Y _ _ X LT UD) as [_ H].
  destruct (called_call _ _ _ _ _ _ k XY ltac:(apply in_or_app; right; exact C)) as (p & N). destruct (returned_done _ _ _ _ _ _ k' XY ltac:(apply in_or_app; right; exact R)) as (c & N'). rewrite N in N'. injection N' as <- ->.
  destruct (H _ N) as (h0 & O & h & -> & A & B). exists h. split; [exact O|]. split; [exact A|]. intros v E. destruct (B v E) as (l & hp & hl & h1 & -> & (LI & SO) & L & [[]|(T1 & _ & T3)]). exists l, hp, hl, h1.
  split; [reflexivity|]. split; [exact LI|]. split; [exact L|]. unfold known. destruct SO as [[]|[(-> & NE & ->)|(NE & T0)]].
  - split; [intros _; split; [|intros n; symmetry; apply dget_keys]|]. { destruct (d_nodes (g_d s1)) as [|[n x] T]; [contradiction|]. exists n. cbn. rewrite Z.eqb_refl. discriminate. }
    split; [intros H0; contradiction H0; reflexivity|]. split; [exact T1|]. intros n J. apply T3. apply ITER. exact J.
  - split; [intros H0; contradiction|]. split; [intros _ n; rewrite T0; reflexivity|]. split; [exact T1|]. intros n J. apply T3. apply ITER. exact J.
Qed.
End Runs.
