(** Proofs about reads of configuration parameters on a running node. *)
From Coq Require Import String ZArith List Bool Lia.
From Verif Require Import Py Schema Registry Codec Waiter Conn ConnLemmas NodeReq SpecNodeReq NodeReqProofs NodeFresh NodeM CmdClass SpecClass ClassProofs ConfigRunM SpecConfigRun.
From Verif Require AssocM InterviewVisit.
Import ListNotations.
Open Scope list_scope.
Open Scope string_scope.
Open Scope list_scope.
Open Scope Z_scope.

Definition nets (tr : ctrace) : ntrace := flat_map (fun x => match x with (n, CONet o) => [(n, o)] | _ => [] end) tr.
Lemma nets_app a b : nets (a ++ b) = nets a ++ nets b. Proof. apply flat_map_app. Qed.
Lemma nets_map n os : nets (cstamp n (map CONet os)) = nstamp n os.
Proof. induction os as [|o os IH]; [reflexivity|]. change (nets (cstamp n (map CONet (o :: os)))) with ((n, o) :: nets (cstamp n (map CONet os))). now rewrite IH. Qed.
Lemma in_nets n o tr : In (n, o) (nets tr) <-> In (n, CONet o) tr.
Proof.
  unfold nets. rewrite in_flat_map. split.
  - intros ([n0 []] & J & K); cbn in K; try destruct K as [K|[]]; try contradiction. injection K as -> ->. exact J.
  - intros J. exists (n, CONet o). split; [exact J|left; reflexivity].
Qed.
Lemma in_cstamp n n' os o : In (n', o) (cstamp n os) -> n' = n /\ In o os.
Proof. unfold cstamp. intros H. apply in_map_iff in H as (x & E & I). injection E as -> ->. auto. Qed.
Lemma asker_some u : forall ts t t', asker u t ts = Some t' -> (t <= t')%nat /\ nth_error ts (t' - t) = Some (CSusp u).
Proof.
  induction ts as [|p ts IH]; intros t t' H; [discriminate|]. assert (G : asker u (S t) ts = Some t' -> (t <= t')%nat /\ nth_error (p :: ts) (t' - t) = Some (CSusp u)).
  { intros E. destruct (IH _ _ E) as [L N]. split; [lia|]. replace (t' - t)%nat with (S (t' - S t)) by lia. exact N. }
  cbn in H. destruct p as [u'|r]; [|exact (G H)]. destruct (Nat.eqb_spec u' u) as [->|]; [|exact (G H)]. injection H as <-. split; [lia|]. rewrite Nat.sub_diag. reflexivity.
Qed.
Lemma returned_in os u r : AssocM.returned os = Some (u, r) -> In (NRet u r) os.
Proof.
  unfold AssocM.returned. destruct (filter _ os) as [|[| | |u' r'] l] eqn:E; try discriminate. intros H. injection H as -> ->.
  assert (J : In (NRet u r) (filter (fun o => match o with NRet _ _ => true | _ => false end) os)) by (rewrite E; left; reflexivity). apply filter_In in J. tauto.
Qed.
Lemma get_new k : exists q, new_msg m_Configuration_Get [("parameterNumber", VInt k)] = Ok q /\ q = VObj (CMsg m_Configuration_Get) [("parameterNumber", VI false 1 k)].
Proof. eexists. split; reflexivity. Qed.
Lemma get_bytes k q : 0 <= k < 256 -> new_msg m_Configuration_Get [("parameterNumber", VInt k)] = Ok q -> asks_for k q.
Proof.
  intros B H. destruct (get_new k) as (q' & E & ->). rewrite E in H. injection H as <-. unfold asks_for.
  apply (every_byte (fun k => compose (VObj (CMsg m_Configuration_Get) [("parameterNumber", VI false 1 k)])) (fun k => Ok [112; 5; k])); [vm_compute; reflexivity|exact B].
Qed.

(** ** Steps *)
Inductive ccase (s : crun) : cevent -> crun -> list cobs -> Prop :=
| CC_quiet e n os : nstep (c_net s) e = Some (n, os) -> ccase s (CNet e) (mkCR n (noted os (c_pars s)) (c_tasks s)) (map CONet os)
| CC_ret e n os u r t : nstep (c_net s) e = Some (n, os) -> In (NRet u r) os -> nth_error (c_tasks s) t = Some (CSusp u) ->
    ccase s (CNet e) (mkCR n (noted os (c_pars s)) (upd t (CEnd (read_value r)) (c_tasks s))) (map CONet os ++ [CODone t (read_value r)])
| CC_kept k v sz : dget Z.eqb k (c_pars s) = Some (v, sz) ->
    ccase s (CGet k true) (mkCR (c_net s) (c_pars s) (c_tasks s ++ [CEnd (Ok (VInt v))])) [COCall (List.length (c_tasks s)) k true; CODone (List.length (c_tasks s)) (Ok (VInt v))]
| CC_ask k c q n os : (c = true -> dget Z.eqb k (c_pars s) = None) -> new_msg m_Configuration_Get [("parameterNumber", VInt k)] = Ok q -> nstep (c_net s) (NEvCall (NReq config_report 3000)) = Some (n, os) ->
    os = [NCall (List.length (n_tasks (c_net s))) (NReq config_report 3000)] ->
    ccase s (CGet k c) (mkCR n (c_pars s) (c_tasks s ++ [CSusp (List.length (n_tasks (c_net s)))]))
      (COCall (List.length (c_tasks s)) k c :: COAsk (List.length (c_tasks s)) (List.length (n_tasks (c_net s))) q :: map CONet os).
Lemma step_case s e s' os : cstep s e = Some (s', os) -> ccase s e s' os.
Proof.
  destruct e as [e|k c]; cbn [cstep].
  - destruct (nstep (c_net s) e) as [[n on]|] eqn:E; [|discriminate]. cbv zeta. cbn [c_tasks]. intros H. injection H as H.
    destruct (AssocM.returned on) as [[u r]|] eqn:R; [|injection H as <- <-; apply CC_quiet; exact E].
    destruct (asker u 0 (c_tasks s)) as [t|] eqn:A; injection H as <- <-; [|apply CC_quiet; exact E].
    apply asker_some in A as [_ A]. rewrite Nat.sub_0_r in A. apply (CC_ret s e n on u r t E (returned_in _ _ _ R) A).
  - cbv zeta. assert (A : forall q, new_msg m_Configuration_Get [("parameterNumber", VInt k)] = Ok q -> (c = true -> dget Z.eqb k (c_pars s) = None) ->
      match nstep (c_net s) (NEvCall (NReq (s_hid m_Configuration_Report) 3000)) with
      | Some (n, os0) => Some (mkCR n (c_pars s) (c_tasks s ++ [CSusp (List.length (n_tasks (c_net s)))]), COCall (List.length (c_tasks s)) k c :: COAsk (List.length (c_tasks s)) (List.length (n_tasks (c_net s))) q :: map CONet os0)
      | None => None end = Some (s', os) -> ccase s (CGet k c) s' os).
    { intros q Q N. change (s_hid m_Configuration_Report) with config_report. destruct (nstep (c_net s) _) as [[n on]|] eqn:E; [|discriminate]. intros H. injection H as <- <-. apply CC_ask; [exact N|exact Q|exact E|].
      cbn [nstep] in E. destruct (add_session _ _) as [f w]. injection E as _ <-. reflexivity. }
    destruct (get_new k) as (q & Q & _). rewrite Q. destruct c.
    + destruct (dget Z.eqb k (c_pars s)) as [[v sz]|] eqn:D; [|intros H; exact (A q Q (fun _ => eq_refl) H)]. intros H. injection H as <- <-. apply CC_kept with sz. exact D.
    + intros H. apply (A q Q); [discriminate|exact H].
Qed.

(** ** What is known of the tasks *)
Record linked (s : crun) (tr : ctrace) : Prop := mkLinked {
  l_net : exists es, nexec nstate0 es (c_net s) (nets tr);
  l_susp : forall t u, nth_error (c_tasks s) t = Some (CSusp u) -> exists p, nth_error (n_tasks (c_net s)) u = Some (mkNT (NReq config_report 3000) p);
  l_ask : forall n t u q, In (n, COAsk t u q) tr -> nth_error (c_tasks s) t = Some (CSusp u) \/ exists r, nth_error (c_tasks s) t = Some (CEnd r);
  l_done : forall n t r, In (n, CODone t r) tr -> nth_error (c_tasks s) t = Some (CEnd r) }.
Lemma nth_snoc {A} (l : list A) x t : nth_error (l ++ [x]) t = if Nat.eqb t (List.length l) then Some x else nth_error l t.
Proof.
  destruct (Nat.eqb_spec t (List.length l)) as [->|D]; [rewrite nth_error_app2, Nat.sub_diag by lia; reflexivity|].
  destruct (Nat.lt_ge_cases t (List.length l)) as [L|L]; [now rewrite nth_error_app1|]. assert (N : nth_error l t = None) by (apply nth_error_None; lia). rewrite N. apply nth_error_None. rewrite app_length. cbn. lia.
Qed.
Lemma nth_old {A} (l : list A) x t y : nth_error l t = Some y -> nth_error (l ++ [x]) t = Some y.
Proof. intros H. rewrite nth_error_app1; [exact H|]. apply nth_error_Some. congruence. Qed.
Lemma nth_change {A} (l : list A) t x y : nth_error l t = Some y -> forall u, nth_error (upd t x l) u = if Nat.eqb u t then Some x else nth_error l u.
Proof. intros H u. destruct (Nat.eqb_spec u t) as [->|D]; [exact (nth_upd_same _ _ _ _ H)|apply nth_upd_other; auto]. Qed.
Lemma nets_done n os t r : nets (cstamp n (map CONet os ++ [CODone t r])) = nstamp n os.
Proof. unfold cstamp. rewrite map_app, nets_app. fold (cstamp n (map CONet os)). rewrite nets_map. apply app_nil_r. Qed.
Lemma linked_step s tr e s' os : linked s tr -> cstep s e = Some (s', os) -> linked s' (tr ++ cstamp (n_now (c_net s)) os).
Proof.
  intros [[es X] S A D] ST. apply step_case in ST.
  destruct ST as [e n os E|e n os u r t E J Q|k v sz K|k c q n os K Q E O]; cbn [c_net c_pars c_tasks].
  - constructor; cbn [c_net c_pars c_tasks].
    + exists (es ++ [e]). rewrite nets_app, nets_map. econstructor; eassumption.
    + intros t u T. destruct (S t u T) as (p & P). destruct (step_tasks _ _ _ _ E) as (KT & _). destruct (KT u _ P) as ([c' p'] & Y & Y2 & _). cbn in Y2. subst c'. eauto.
    + intros n0 t u q I. apply in_app_or in I as [I|I]; [exact (A _ _ _ _ I)|]. apply in_cstamp in I as [_ I]. apply in_map_iff in I as (? & I & _). discriminate.
    + intros n0 t r I. apply in_app_or in I as [I|I]; [exact (D _ _ _ I)|]. apply in_cstamp in I as [_ I]. apply in_map_iff in I as (? & I & _). discriminate.
  - pose proof (nth_change _ _ (CEnd (read_value r)) _ Q) as NC. constructor; cbn [c_net c_pars c_tasks].
    + exists (es ++ [e]). rewrite nets_app, nets_done. econstructor; eassumption.
    + intros t0 u0 T. rewrite NC in T. destruct (Nat.eqb t0 t); [discriminate|]. destruct (S t0 u0 T) as (p & P). destruct (step_tasks _ _ _ _ E) as (KT & _). destruct (KT u0 _ P) as ([c' p'] & Y & Y2 & _). cbn in Y2. subst c'. eauto.
    + intros n0 t0 u0 q I. rewrite NC. apply in_app_or in I as [I|I].
      * destruct (Nat.eqb t0 t); [right; eauto|exact (A _ _ _ _ I)].
      * apply in_cstamp in I as [_ I]. apply in_app_or in I as [I|[I|[]]]; [apply in_map_iff in I as (? & I & _)|]; discriminate.
    + intros n0 t0 r0 I. rewrite NC. apply in_app_or in I as [I|I].
      * destruct (Nat.eqb_spec t0 t) as [->|]; [|exact (D _ _ _ I)]. rewrite (D _ _ _ I) in Q. discriminate.
      * apply in_cstamp in I as [_ I]. apply in_app_or in I as [I|[I|[]]]; [apply in_map_iff in I as (? & I & _); discriminate|]. injection I as <- <-. now rewrite Nat.eqb_refl.
  - constructor; cbn [c_net c_pars c_tasks].
    + exists es. rewrite nets_app. cbn. rewrite app_nil_r. exact X.
    + intros t u T. rewrite nth_snoc in T. destruct (Nat.eqb _ _); [discriminate|exact (S t u T)].
    + intros n0 t u q I. apply in_app_or in I as [I|I]; [|apply in_cstamp in I as [_ [I|[I|[]]]]; discriminate].
      destruct (A _ _ _ _ I) as [H|[r H]]; [left|right; exists r]; apply nth_old; exact H.
    + intros n0 t r I. apply in_app_or in I as [I|I]; [apply nth_old; exact (D _ _ _ I)|]. apply in_cstamp in I as [_ [I|[I|[]]]]; [discriminate|]. injection I as <- <-. rewrite nth_snoc, Nat.eqb_refl. reflexivity.
  - assert (N : n_tasks n = n_tasks (c_net s) ++ [mkNT (NReq config_report 3000) NSending]) by (cbn [nstep] in E; destruct (add_session _ _) as [f w]; injection E as <- _; reflexivity).
    constructor; cbn [c_net c_pars c_tasks].
    + exists (es ++ [NEvCall (NReq config_report 3000)]). rewrite nets_app. unfold cstamp. cbn [map]. unfold nets at 2. cbn [flat_map app]. fold (cstamp (n_now (c_net s)) (map CONet os)). fold (nets (cstamp (n_now (c_net s)) (map CONet os))).
      rewrite nets_map. econstructor; eassumption.
    + intros t u T. rewrite nth_snoc in T. rewrite N. destruct (Nat.eqb _ _); [injection T as <-; rewrite nth_snoc, Nat.eqb_refl; eauto|]. destruct (S t u T) as (p & P). exists p. apply nth_old. exact P.
    + intros n0 t u q0 I. apply in_app_or in I as [I|I]; [destruct (A _ _ _ _ I) as [H|[r H]]; [left|right; exists r]; apply nth_old; exact H|].
      apply in_cstamp in I as [_ [I|[I|I]]]; [discriminate| |apply in_map_iff in I as (? & I & _); discriminate]. injection I as <- <- <-. left. rewrite nth_snoc, Nat.eqb_refl. reflexivity.
    + intros n0 t r I. apply in_app_or in I as [I|I]; [apply nth_old; exact (D _ _ _ I)|]. apply in_cstamp in I as [_ [I|[I|I]]]; [discriminate|discriminate|apply in_map_iff in I as (? & I & _); discriminate].
Qed.
Lemma linked_exec ps es s tr : cexec (crun0 ps) es s tr -> linked s tr.
Proof.
  induction 1 as [|es s tr e s' os X IH ST]; [|exact (linked_step _ _ _ _ _ IH ST)].
  constructor; cbn; [exists []; constructor|intros [|t] u H; discriminate H|intros n t u q []|intros n t r []].
Qed.

(** ** The table follows the reports *)
Lemma last_snoc {A} (l : list A) x d : last (l ++ [x]) d = x.
Proof. induction l as [|y l IH]; [reflexivity|]. destruct l as [|z l]; [reflexivity|exact IH]. Qed.
Lemma latest_quiet ps k tr os : flat_map (says_of k) os = [] -> latest ps k (tr ++ os) = latest ps k tr.
Proof. intros H. unfold latest. now rewrite flat_map_app, H, app_nil_r. Qed.
Lemma latest_new ps k tr os v : flat_map (says_of k) os = [v] -> latest ps k (tr ++ os) = Some v.
Proof. intros H. unfold latest. rewrite flat_map_app, H, map_app. apply last_snoc. Qed.
Lemma dget_dset k k' (v : Z * Z) d : dget Z.eqb k (dset Z.eqb k' v d) = if k =? k' then Some v else dget Z.eqb k d.
Proof.
  induction d as [|[a b] d IH]; cbn; [destruct (Z.eqb_spec k k'); reflexivity|].
  destruct (Z.eqb_spec k' a) as [->|N]; cbn; [destruct (Z.eqb_spec k a); reflexivity|]. destruct (Z.eqb_spec k a) as [->|]; [|exact IH]. destruct (Z.eqb_spec a k'); [congruence|reflexivity].
Qed.
Definition kept (ps : parameters) (k : Z) : option Z := match dget Z.eqb k ps with Some (v, _) => Some v | None => None end.
Lemma recv_alone s e n os : nstep s e = Some (n, os) -> (exists m r, os = [NRecv m r]) \/ forall m r, ~ In (NRecv m r) os.
Proof.
  intros H. destruct e as [dt|c|t v|m0|t|t|t]; cbn [nstep] in H; [right|right|right|left|right|right|right].
  - destruct (0 <=? dt); [|discriminate]. injection H as <- <-. intros m r [].
  - intros m r J. destruct c as [h tmo|h tmo]; [destruct (add_session h (n_w s)) as [f w]|]; injection H as <- <-; destruct J as [J|[]]; discriminate.
  - intros m r J. destruct (nth_error (n_tasks s) t) as [[[h tmo|h tmo] []]|]; try discriminate. unfold n_finish in H. destruct v as [[]|e]; injection H as <- <-; cbn in J; intuition discriminate.
  - destruct m0; try discriminate. destruct (message_received _ _) as [w r]. injection H as <- <-. eauto.
  - destruct (nth_error (n_tasks s) t) as [[c [|h f dl []|h f|r]]|]; try discriminate. destruct (dl <=? n_now s); [|discriminate]. injection H as <- <-. intros m r [].
  - intros m r J. destruct (nth_error (n_tasks s) t) as [[c [|h f dl ph|h f|r0]]|]; try discriminate.
    + unfold n_resume, n_finish in H. destruct (nth_error (w_futs (n_w s)) f) as [[|v|]|], ph; try discriminate; injection H as <- <-; cbn in J; try contradiction; destruct J as [J|[]]; discriminate.
    + unfold n_finish in H. injection H as <- <-. cbn in J; intuition discriminate.
  - intros m r J. destruct (nth_error (n_tasks s) t) as [[c [|h f dl ph|h f|r0]]|]; try discriminate; unfold n_finish in H; injection H as <- <-; cbn in J; intuition discriminate.
Qed.
Lemma says_other k n os : (forall m r, ~ In (CONet (NRecv m r)) os) -> flat_map (says_of k) (cstamp n os) = [].
Proof.
  induction os as [|o os IH]; intros H; [reflexivity|]. cbn [cstamp map flat_map]. fold (cstamp n os). rewrite IH by (intros m r J; apply (H m r); right; exact J). rewrite app_nil_r.
  destruct o as [[| |m r|]| | |]; try reflexivity. destruct (H m r). left. reflexivity.
Qed.
Lemma noted_step ps0 k tr n os x : flat_map (says_of k) (cstamp n x) = [] -> (exists m r, os = [NRecv m r]) \/ (forall m r, ~ In (NRecv m r) os) -> whole (cstamp n (map CONet os)) ->
  forall ps, kept ps k = latest ps0 k tr -> kept (noted os ps) k = latest ps0 k (tr ++ cstamp n (map CONet os ++ x)).
Proof.
  intros QX R W ps E. unfold cstamp. rewrite map_app, app_assoc, latest_quiet by exact QX. fold (cstamp n (map CONet os)). destruct R as [(m & r & ->)|N].
  - destruct r as [b|e].
    + destruct (Z.eqb_spec (hid m) config_report) as [H|H].
      * destruct (W n m (Ok b)) as (j & v & sz & P); [left; reflexivity|exact H|]. cbn [noted]. change (s_hid m_Configuration_Report) with config_report. rewrite H, Z.eqb_refl, (cfg_report_ok _ _ _ _ _ P). cbn [fst].
        unfold kept. rewrite dget_dset. destruct P as (d & -> & (a1 & a2 & K) & V & _). destruct (Z.eqb_spec k j) as [->|NE].
        -- symmetry. apply latest_new. cbn [cstamp map flat_map says_of getattr]. rewrite H, K, V, !Z.eqb_refl. reflexivity.
        -- rewrite latest_quiet; [exact E|]. cbn [cstamp map flat_map says_of getattr]. rewrite H, K, V, Z.eqb_refl. destruct (Z.eqb_spec j k); [congruence|reflexivity].
      * cbn [noted]. change (s_hid m_Configuration_Report) with config_report. destruct (Z.eqb_spec (hid m) config_report); [contradiction|]. rewrite latest_quiet; [exact E|]. cbn [cstamp map flat_map says_of].
        destruct (Z.eqb_spec (hid m) config_report); [contradiction|reflexivity].
    + cbn [noted]. rewrite latest_quiet; [exact E|reflexivity].
  - rewrite latest_quiet by (apply says_other; intros m r J; apply in_map_iff in J as (o & O & J); injection O as ->; exact (N _ _ J)).
    replace (noted os ps) with ps; [exact E|]. destruct os as [|[| |m r|] [|]]; try reflexivity; destruct (N m r); left; reflexivity.
Qed.
Lemma whole_app a b : whole (a ++ b) -> whole a /\ whole b.
Proof. intros W. split; intros n m r J; apply (W n m r), in_or_app; auto. Qed.
Lemma pars_exec ps es s tr k : cexec (crun0 ps) es s tr -> whole tr -> kept (c_pars s) k = latest ps k tr.
Proof.
  induction 1 as [|es s tr e s' os X IH ST]; intros W; [reflexivity|]. apply whole_app in W as [W WO]. specialize (IH W). apply step_case in ST.
  destruct ST as [e n os E|e n os u r t E J Q|k0 v sz K|k0 c q n os K Q E O]; cbn [c_net c_pars c_tasks].
  - rewrite <- (app_nil_r (map CONet os)). apply noted_step; [reflexivity|exact (recv_alone _ _ _ _ E)|exact WO|exact IH].
  - apply noted_step; [reflexivity|exact (recv_alone _ _ _ _ E)| |exact IH]. unfold cstamp in WO. rewrite map_app in WO. apply whole_app in WO as [WO _]. exact WO.
  - rewrite latest_quiet; [exact IH|reflexivity].
  - subst os. rewrite latest_quiet; [exact IH|reflexivity].
Qed.

(** ** Calls *)
Definition answered (ps : parameters) (a : ctrace) (n : Z) (t : nat) (k : Z) (c : bool) (b : ctrace) : Prop :=
  match (if c then latest ps k a else None) with
  | Some v => exists b', b = (n, CODone t (Ok (VInt v))) :: b'
  | None => exists u q b', b = (n, COAsk t u q) :: b' /\ (0 <= k < 256 -> asks_for k q)
  end.
Lemma answered_more ps a n t k c b x : answered ps a n t k c b -> answered ps a n t k c (b ++ x).
Proof. unfold answered. destruct (if c then latest ps k a else None); [intros (b' & ->); exists (b' ++ x); reflexivity|]. intros (u & q & b' & -> & H). exists u, q, (b' ++ x). auto. Qed.
Lemma one_split {A} (x : A) y a z b : x :: y = a ++ z :: b -> ~ In z y -> a = [] /\ x = z /\ y = b.
Proof. destruct a as [|w a]; cbn; intros H N; injection H as -> H; [auto|]. destruct N. rewrite H. apply in_or_app. right. left. reflexivity. Qed.
Lemma calls_exec ps es s tr a n t k c b : cexec (crun0 ps) es s tr -> whole tr -> tr = a ++ (n, COCall t k c) :: b -> answered ps a n t k c b.
Proof.
  intros X. revert a b. induction X as [|es s tr e s' os X IH ST]; intros a b W E; [destruct a; discriminate|]. pose proof W as W0. apply whole_app in W0 as [W0 _].
  destruct (InterviewVisit.split_two _ _ _ _ _ E) as [[d Y]|(d & -> & E')].
  - assert (B : b = d ++ cstamp (n_now (c_net s)) os) by (rewrite Y, <- app_assoc in E; cbn in E; apply app_inv_head in E; injection E as E; symmetry; exact E).
    rewrite B. apply answered_more. apply IH; assumption.
  - clear E IH. pose proof (pars_exec ps _ _ _ k X W0) as P. apply step_case in ST.
    assert (NO : forall n0 on, ~ In (n, COCall t k c) (cstamp n0 (map CONet on))) by (intros n0 on J; apply in_cstamp in J as [_ J]; apply in_map_iff in J as (? & J & _); discriminate).
    destruct ST as [e n0 os H|e n0 os u r t0 H J Q|k0 v sz K|k0 c0 q n0 os K Q H O].
    + destruct (NO (n_now (c_net s)) os). rewrite E'. apply in_or_app. right. left. reflexivity.
    + exfalso. assert (I : In (n, COCall t k c) (cstamp (n_now (c_net s)) (map CONet os ++ [CODone t0 (read_value r)]))) by (rewrite E'; apply in_or_app; right; left; reflexivity).
      unfold cstamp in I. rewrite map_app in I. apply in_app_or in I as [I|[I|[]]]; [exact (NO _ _ I)|discriminate].
    + cbn [cstamp map] in E'. apply one_split in E' as (-> & E1 & <-); [|intros [I|[]]; discriminate]. injection E1 as <- <- <- <-. rewrite app_nil_r. unfold answered. rewrite <- P. unfold kept. rewrite K. eexists. reflexivity.
    + cbn [cstamp map] in E'. apply one_split in E' as (-> & E1 & <-); [|intros [I|I]; [discriminate|exact (NO _ _ I)]]. injection E1 as <- <- <- <-. rewrite app_nil_r. unfold answered. rewrite <- P. unfold kept.
      replace (if c0 then match dget Z.eqb k0 (c_pars s) with Some (v, _) => Some v | None => None end else None) with (@None Z) by (destruct c0; [rewrite (K eq_refl)|]; reflexivity).
      eexists _, q, _. split; [reflexivity|]. intros B. exact (get_bytes _ _ B Q).
Qed.

(** ** Answers *)
Definition asked_first (tr : ctrace) : Prop := forall a n t u q b n' r, tr = a ++ (n, COAsk t u q) :: b -> ~ In (n', CONet (NSent u r)) a.
Lemma asked_exec ps es s tr : cexec (crun0 ps) es s tr -> asked_first tr.
Proof.
  induction 1 as [|es s tr e s' os X IH ST]; intros a n t u q b n' r E J; [destruct a; discriminate|].
  destruct (InterviewVisit.split_two _ _ _ _ _ E) as [[d ->]|(d & -> & E')]; [exact (IH _ _ _ _ _ _ _ _ eq_refl J)|]. clear IH E. destruct (linked_exec _ _ _ _ X) as [[es0 L] _ _ _].
  assert (I : In (n, COAsk t u q) (cstamp (n_now (c_net s)) os)) by (rewrite E'; apply in_or_app; right; left; reflexivity). apply in_cstamp in I as [_ I]. apply step_case in ST.
  destruct ST as [e n0 os H|e n0 os u0 r0 t0 H J0 Q|k0 v sz K|k0 c0 q0 n0 os K Q H O].
  - apply in_map_iff in I as (? & I & _). discriminate.
  - apply in_app_or in I as [I|[I|[]]]; [apply in_map_iff in I as (? & I & _)|]; discriminate.
  - destruct I as [I|[I|[]]]; discriminate.
  - subst os. cbn [map] in I. destruct I as [I|[I|[I|[]]]]; try discriminate. injection I as IT IU IQ. subst t u q0. apply in_app_or in J as [J|J].
    + apply in_nets in J. pose proof (InterviewVisit.sent_lt _ _ _ _ _ _ L J). lia.
    + assert (I : In (n', CONet (NSent (List.length (n_tasks (c_net s))) r)) (cstamp (n_now (c_net s)) (COCall (List.length (c_tasks s)) k0 c0 :: COAsk (List.length (c_tasks s)) (List.length (n_tasks (c_net s))) q :: map CONet [NCall (List.length (n_tasks (c_net s))) (NReq config_report 3000)])))
        by (rewrite E'; apply in_or_app; left; exact J).
      apply in_cstamp in I as [_ I]. cbn in I. intuition discriminate.
Qed.
Lemma nets_split tr : forall A n o B, nets tr = A ++ (n, o) :: B -> exists a b, tr = a ++ (n, CONet o) :: b /\ nets b = B.
Proof.
  induction tr as [|[n0 o0] tr IH]; intros A n o B E; [destruct A; discriminate|].
  assert (C : nets tr = A ++ (n, o) :: B -> exists a b, (n0, o0) :: tr = a ++ (n, CONet o) :: b /\ nets b = B).
  { intros E0. destruct (IH _ _ _ _ E0) as (a & b & -> & <-). exists ((n0, o0) :: a), b. auto. }
  destruct o0; try (apply C, E). cbn in E. destruct A as [|x A]; cbn in E.
  - injection E as <- <- <-. exists [], tr. auto.
  - injection E as <- E. destruct (IH _ _ _ _ E) as (a & b & -> & <-). exists ((n0, CONet o0) :: a), b. auto.
Qed.
Lemma reply s tr e n osn u m t : linked s tr -> nstep (c_net s) e = Some (n, osn) -> In (NRet u (RMsg m)) osn -> nth_error (c_tasks s) t = Some (CSusp u) ->
  hid m = config_report /\ exists n0, In (n0, NRecv m (Ok true)) (since_sent u (nets tr ++ nstamp (n_now (c_net s)) osn)).
Proof.
  intros L ST J Q. destruct (l_susp _ _ L _ _ Q) as (p & P1). destruct (l_net _ _ L) as [es X].
  assert (X' : nexec nstate0 (es ++ [e]) n (nets tr ++ nstamp (n_now (c_net s)) osn)) by (econstructor; eassumption).
  destruct (step_tasks _ _ _ _ ST) as (KT & _ & _ & _ & OR & _). destruct (OR u _ J) as (y & Y1 & Y2). destruct (KT u _ P1) as (y' & Y3 & Y4 & _). rewrite Y1 in Y3. injection Y3 as <-.
  destruct y as [c pc]. cbn in Y2, Y4. subst c pc. pose proof (f_task _ _ (exec_fresh _ _ _ X') u _ 3000 _ Y1) as F. cbn in F. destruct F as [_ [F1 F2]]. auto.
Qed.
Lemma values_exec ps es s tr a n t u q b n' v c : cexec (crun0 ps) es s tr -> tr = a ++ (n, COAsk t u q) :: b ++ (n', CODone t (Ok v)) :: c ->
  exists m n1 n2 b1 b2 b3, b = b1 ++ (n1, CONet (NSent u (Ok true))) :: b2 ++ (n2, CONet (NRecv m (Ok true))) :: b3 /\ hid m = config_report /\ v = getattr m "value".
Proof.
  intros X. revert c. induction X as [|es s tr e s' os X IH ST]; intros c E; [destruct a; discriminate|].
  assert (E2 : tr ++ cstamp (n_now (c_net s)) os = (a ++ (n, COAsk t u q) :: b) ++ (n', CODone t (Ok v)) :: c) by (rewrite <- app_assoc; exact E). clear E.
  destruct (InterviewVisit.split_two _ _ _ _ _ E2) as [[d Y]|(d & Y & E')].
  { apply (IH d). rewrite Y, <- app_assoc. reflexivity. }
  clear IH E2. pose proof (linked_exec _ _ _ _ X) as L. pose proof (asked_exec _ _ _ _ X) as AF.
  assert (OLD : ~ In (n, COAsk t u q) d -> exists b0, tr = a ++ (n, COAsk t u q) :: b0 /\ b = b0 ++ d).
  { intros N. symmetry in Y. destruct (InterviewVisit.split_two _ _ _ _ _ Y) as [[b0 E0]|(b0 & E0 & E1)].
    - exists b0. split; [exact E0|]. rewrite E0, <- app_assoc in Y. cbn in Y. apply app_inv_head in Y. injection Y as Y. symmetry. exact Y.
    - destruct N. rewrite E1. apply in_or_app. right. left. reflexivity. }
  assert (I : In (n', CODone t (Ok v)) (cstamp (n_now (c_net s)) os)) by (rewrite E'; apply in_or_app; right; left; reflexivity). apply in_cstamp in I as [-> I].
  assert (DI : forall x, In x d -> In x (cstamp (n_now (c_net s)) os)) by (intros x K; rewrite E'; apply in_or_app; auto). apply step_case in ST.
  destruct ST as [e n0 os H|e n0 os u0 r0 t0 H J0 Q|k0 v0 sz K|k0 c0 q0 n0 os K Q H O].
  - apply in_map_iff in I as (? & I & _). discriminate.
  - apply in_app_or in I as [I|[I|[]]]; [apply in_map_iff in I as (? & I & _); discriminate|]. injection I as -> RV.
    destruct OLD as (b0 & TE & BE). { intros K. apply DI, in_cstamp in K as [_ K]. apply in_app_or in K as [K|[K|[]]]; [apply in_map_iff in K as (? & K & _)|]; discriminate. }
    assert (U : u0 = u). { destruct (l_ask _ _ L n t u q) as [K|[r K]]; [rewrite TE; apply in_or_app; right; left; reflexivity| |]; rewrite Q in K; [congruence|discriminate]. } subst u0.
    destruct r0 as [?|m|?]; try discriminate RV. cbn in RV. injection RV as <-. pose proof (InterviewVisit.msg_alone _ _ _ _ _ _ H J0) as ->.
    destruct (reply _ _ _ _ _ _ _ _ L H J0 Q) as (HH & n2 & RC). rewrite since_sent_app in RC. destruct (sent_ok u (nets tr)) eqn:SO; [|destruct RC].
    apply in_app_or in RC as [RC|RC]; [|destruct RC as [RC|[]]; discriminate]. apply since_split in RC as (A & n1 & B & NE & RC). apply nets_split in NE as (a' & b' & TE' & BE'). subst B. apply in_nets in RC.
    apply in_split in RC as (x & y & RC). rewrite TE in TE'. destruct (InterviewVisit.split_two _ _ _ _ _ TE') as [[z ->]|([|w z] & E0 & E1)].
    + exfalso. eapply (AF _ _ _ _ _ _ n1 (Ok true) TE). apply in_or_app. right. left. reflexivity.
    + discriminate.
    + cbn in E1. injection E1 as <- E1. exists m, n1, n2, z, x, (y ++ d). split; [|auto]. rewrite BE, E1, RC. repeat (rewrite <- app_assoc; cbn [app]). reflexivity.
  - exfalso. destruct I as [I|[I|[]]]; [discriminate|]. injection I as <- <-. destruct OLD as (b0 & TE & _).
    { intros I. apply DI, in_cstamp in I as [_ [I|[I|[]]]]; discriminate. }
    assert (T : In (n, COAsk (List.length (c_tasks s)) u q) tr) by (rewrite TE; apply in_or_app; right; left; reflexivity).
    destruct (l_ask _ _ L _ _ _ _ T) as [N|[r N]]; assert (LT : (List.length (c_tasks s) < List.length (c_tasks s))%nat) by (apply nth_error_Some; congruence); lia.
  - exfalso. subst os. cbn in I. intuition discriminate.
Qed.
Lemma value_named ps es s tr a n t u q b n' v c k : cexec (crun0 ps) es s tr -> tr = a ++ (n, COAsk t u q) :: b ++ (n', CODone t (Ok v)) :: c ->
  (forall m, received m b -> exists v sz, reports_parameter m k v sz) -> exists m w sz, received m b /\ reports_parameter m k w sz /\ v = VInt w.
Proof.
  intros X E H. destruct (values_exec _ _ _ _ _ _ _ _ _ _ _ _ _ X E) as (m & n1 & n2 & b1 & b2 & b3 & -> & HH & ->).
  assert (R : received m (b1 ++ (n1, CONet (NSent u (Ok true))) :: b2 ++ (n2, CONet (NRecv m (Ok true))) :: b3)).
  { split; [exact HH|]. exists n2. apply in_or_app. right. right. apply in_or_app. right. left. reflexivity. }
  destruct (H m R) as (w & sz & P). exists m, w, sz. split; [exact R|]. split; [exact P|]. destruct P as (d & -> & _ & V & _). cbn [getattr]. rewrite V. reflexivity.
Qed.
Lemma crun_exec s0 es s tr : crun_of s0 es = Some (s, tr) -> cexec s0 es s tr.
Proof.
  assert (G : forall es s1 s tr es0 tr0, cexec s0 es0 s1 tr0 -> crun_of s1 es = Some (s, tr) -> cexec s0 (es0 ++ es) s (tr0 ++ tr)).
  { clear. induction es as [|e es IH]; intros s1 s tr es0 tr0 X H.
    - injection H as <- <-. rewrite !app_nil_r. exact X.
    - cbn [crun_of] in H. destruct (cstep s1 e) as [[s2 os]|] eqn:E; [|discriminate]. destruct (crun_of s2 es) as [[s3 tr2]|] eqn:R; [|discriminate]. injection H as <- <-.
      pose proof (IH _ _ _ _ _ (CX_snoc _ _ _ _ _ _ _ X E) R) as Y. rewrite <- !app_assoc in Y. exact Y. }
  intros H. exact (G es _ s tr [] [] (CX_nil _) H).
Qed.

(** ** Concrete runs *)
Definition rep (k v : Z) : val := match decode [112; 6; k; 1; v] with Ok m => m | Err _ => VNone end.
Definition trace_of (es : list cevent) : ctrace := match crun_of (crun0 []) es with Some (_, tr) => tr | None => [] end.
Definition state_of (es : list cevent) : crun := match crun_of (crun0 []) es with Some (s, _) => s | None => crun0 [] end.
Lemma runs es : crun_of (crun0 []) es <> None -> cexec (crun0 []) es (state_of es) (trace_of es).
Proof. intros H. apply crun_exec. unfold state_of, trace_of. destruct (crun_of (crun0 []) es) as [[s tr]|]; [reflexivity|contradiction]. Qed.
Lemma split_at {A} (tr a : list A) x b : tr = a ++ x :: b -> a = firstn (List.length a) tr /\ nth_error tr (List.length a) = Some x /\ b = skipn (S (List.length a)) tr.
Proof.
  intros ->. split; [rewrite firstn_app, Nat.sub_diag, firstn_all; cbn; now rewrite app_nil_r|]. split; [rewrite nth_error_app2, Nat.sub_diag by lia; reflexivity|].
  rewrite skipn_app, skipn_all2 by lia. replace (S (List.length a) - List.length a)%nat with 1%nat by lia. reflexivity.
Qed.
Definition ev_overlap : list cevent := [CGet 1 false; CGet 2 false; CNet (NEvSent 0 (Ok true)); CNet (NEvSent 1 (Ok true)); CNet (NEvMessage (rep 2 99)); CNet (NEvResume 0); CNet (NEvResume 1); CNet (NEvMessage (rep 1 7))].
Definition ev_other : list cevent := [CGet 1 false; CNet (NEvSent 0 (Ok true)); CNet (NEvMessage (rep 2 99)); CNet (NEvResume 0); CNet (NEvMessage (rep 1 7))].
Definition ev_late : list cevent := [CGet 1 false; CNet (NEvSent 0 (Ok true)); CNet (NEvAdvance 3000); CNet (NEvTimer 0); CNet (NEvResume 0); CNet (NEvResume 0); CGet 2 false; CNet (NEvSent 1 (Ok true)); CNet (NEvMessage (rep 1 7)); CNet (NEvResume 1); CNet (NEvMessage (rep 2 99))].
Ltac cases J := repeat (destruct J as [J|J]; [try discriminate J|]); try (destruct J; fail).
Ltac whole_tac := let n := fresh in let m := fresh in let r := fresh in let J := fresh in intros n m r J _; vm_compute in J; cases J; injection J as <- <- <-; do 4 eexists; (split; [reflexivity|]); vm_compute; eauto 8.
Ltac false_read H i j k c w := let tr := match type of H with true_reads ?t => t end in
  let X := fresh in let m := fresh in let R := fresh in let J := fresh in let P := fresh in let E := fresh in
  let p := eval vm_compute in (nth i tr (0, CONet (NCall 0 (NReq 0 0)))) in
  let a := eval vm_compute in (nth (S i) tr (0, CONet (NCall 0 (NReq 0 0)))) in
  let d := eval vm_compute in (nth j tr (0, CONet (NCall 0 (NReq 0 0)))) in
  match p with (?n, COCall ?t _ _) => match a with (_, COAsk _ ?u ?q) => match d with (?n', CODone _ (Ok ?v)) =>
    pose proof (H (firstn i tr) n t k c u q (firstn (j - i - 2)%nat (skipn (i + 2)%nat tr)) n' v (skipn (S j) tr)) as X end end end;
  specialize (X ltac:(vm_compute; reflexivity)); destruct X as (m & w & X); destruct X as (sz & (_ & n0 & J) & (dd & -> & (x1 & x2 & P) & _) & _); vm_compute in J; cases J; injection J as _ <-; discriminate P.
Definition getq (k : Z) : val := VObj (CMsg m_Configuration_Get) [("parameterNumber", VI false 1 k)].
Ltac hit n t k := exists n, t, t, (getq k); split; [vm_compute; tauto|vm_compute; reflexivity].
Ltac answers_tac fin := let H := fresh in let P := fresh in intros a n m r b k v sz H P; apply split_at in H; destruct H as (Ha & Hm & _); rewrite Ha; revert Hm; generalize (List.length a); clear a Ha b;
  intros i Hm; do 20 (destruct i as [|i]; [vm_compute in Hm; try discriminate Hm; injection Hm as <- <- <-; destruct P as (d & E & (x1 & x2 & K) & _); injection E as <-; vm_compute in K; injection K as <- <- <-; fin|]);
  vm_compute in Hm; destruct i; discriminate Hm.
Lemma overlap_false : ~ true_reads (trace_of ev_overlap).
Proof. intros H. false_read H 0%nat 10%nat 1 false w. Qed.
Lemma overlap_whole : whole (trace_of ev_overlap). Proof. whole_tac. Qed.
Lemma overlap_answers : answers_only (trace_of ev_overlap).
Proof. answers_tac ltac:(first [hit 0 1%nat 2|hit 0 0%nat 1]). Qed.
Lemma other_false : ~ true_reads (trace_of ev_other).
Proof. intros H. false_read H 0%nat 6%nat 1 false w. Qed.
Lemma other_whole : whole (trace_of ev_other). Proof. whole_tac. Qed.
Lemma late_false : ~ true_reads (trace_of ev_late).
Proof. intros H. false_read H 6%nat 12%nat 2 false w. Qed.
Lemma late_whole : whole (trace_of ev_late). Proof. whole_tac. Qed.
Lemma late_answers : answers_only (trace_of ev_late).
Proof. answers_tac ltac:(first [hit 0 0%nat 1|hit 3000 1%nat 2]). Qed.
Ltac one_tac := let H := fresh in intros a n t u q b n' t' u' q' c H; apply split_at in H; destruct H as (_ & Hm & Hb); apply split_at in Hb || (symmetry in Hb; apply split_at in Hb); destruct Hb as (Hb & Hn & _); rewrite Hb; clear Hb; revert Hm Hn;
  generalize (List.length b) (List.length a); clear a b; intros j i Hm; do 20 (destruct i as [|i]; [vm_compute in Hm; try discriminate Hm; injection Hm as <- <- <- <-; intros Hn;
    do 20 (destruct j as [|j]; [vm_compute in Hn; try discriminate Hn; vm_compute; eauto 20|]); vm_compute in Hn; destruct j; discriminate Hn|]); vm_compute in Hm; destruct i; discriminate Hm.
Lemma other_one : one_read (trace_of ev_other). Proof. one_tac. Qed.
Lemma late_one : one_read (trace_of ev_late). Proof. one_tac. Qed.
