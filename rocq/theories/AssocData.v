(** Proofs about the interviews of associations and sensors: the tables hold what was answered. *)
From Coq Require Import String ZArith List Bool Lia ZifyBool.
From Verif Require Import Py Schema Registry Codec BitStream SpecBits SpecDecode DecodeLemmas DecodeProofs Waiter Conn ConnLemmas NodeReq SpecNodeReq NodeReqProofs NodeFresh NodeM CmdClass ClassProofs AssocM SpecAssoc AssocProofs.
From Verif Require SpecClass InterviewVisit NodeProofs.
Import ListNotations.
Open Scope list_scope.
Open Scope string_scope.
Open Scope list_scope.
Open Scope Z_scope.

(** ** decoded messages have attributes of the declared types *)
Definition typed (attrs : list attr) (d : adict) : Prop := forall n v, aget n d = Some v -> exists a, find_attr n attrs = Some a /\ SpecClass.has_type (a_ty a) v.
Lemma aget_set n n' v (d : adict) : aget n (dset String.eqb n' v d) = if String.eqb n n' then Some v else aget n d.
Proof.
  unfold aget. induction d as [|[k x] d IH]; cbn; [destruct (String.eqb n n'); reflexivity|].
  destruct (String.eqb_spec n' k) as [->|N]; cbn; [destruct (String.eqb n k); reflexivity|]. rewrite IH. destruct (String.eqb_spec n k) as [->|N']; [|reflexivity].
  destruct (String.eqb_spec k n'); [congruence|reflexivity].
Qed.
Lemma setattr_typed attrs n v d d' u : typed attrs d -> setattr attrs n v d = Ok (d', u) -> typed attrs d'.
Proof.
  intros D H. unfold setattr in H. destruct (find_attr n attrs) as [a|] eqn:F; [|injection H as <- _; exact D]. destruct (setattr_coerce (a_ty a) v) as [w|] eqn:C; [|discriminate]. cbn [bind] in H.
  assert (N : typed attrs (dset String.eqb n w d)).
  { intros m x E. rewrite aget_set in E. destruct (String.eqb_spec m n) as [->|]; [|exact (D _ _ E)]. injection E as <-. exists a. split; [exact F|]. apply coerce_converted in C. apply C. }
  destruct (aget n d); [|injection H as <- _; exact N]. match type of H with bind ?x _ = _ => destruct x as [[|]|]; [cbn [bind] in H|cbn [bind] in H|discriminate H] end; injection H as <- _; [exact D|exact N].
Qed.
Lemma parse_typed hk ds attrs todo : forall d r d' r', typed attrs d -> parse_attrs hk ds attrs todo d r = Ok (d', r') -> typed attrs d'.
Proof.
  induction todo as [|a todo IH]; intros d r d' r' D H; cbn [parse_attrs] in H; [injection H as <- _; exact D|].
  destruct (bytesLeft r =? 0); [injection H as <- _; exact D|].
  match type of H with bind ?x _ = _ => destruct x as [[v r1]|] eqn:E; [|discriminate H] end. cbn [bind] in H.
  match type of H with bind ?x _ = _ => destruct x as [[d1 u]|] eqn:E1; [|discriminate H] end. cbn [bind] in H.
  exact (IH _ _ _ _ (setattr_typed _ _ _ _ _ _ D E1) H).
Qed.
Lemma decode_typed bs m s : decode bs = Ok m -> hid m = s_hid s -> s_hid s <> 0 -> lookup (s_hid s) = Some s -> exists d, m = VObj (CMsg s) d /\ typed (s_attrs s) d.
Proof.
  unfold decode. intros H HS NZ LS. destruct (deserialize _ _) as [[m0 r0]|] eqn:D; [|discriminate]. cbn [bind] in H. injection H as ->. cbn [deserialize] in D.
  destruct (bytesLeft _ <? 2); [injection D as <- _; cbn in HS; lia|].
  match type of D with bind ?x _ = _ => destruct x as [[c r1]|] eqn:E; [|discriminate D] end. cbn [bind] in D.
  match type of D with bind ?x _ = _ => destruct x as [[k r2]|] eqn:E1; [|discriminate D] end. cbn [bind] in D.
  cbv zeta in D. match type of D with context [lookup ?x] => set (h := x) in D end. clearbody h. destruct (lookup h) as [s0|] eqn:L.
  - match type of D with bind ?x _ = _ => destruct x as [[d r3]|] eqn:E2; [|discriminate D] end. cbn [bind] in D. injection D as <- _. cbn [hid] in HS.
    pose proof (lookup_some _ _ L) as [_ L2]. rewrite <- L2, HS in L. rewrite LS in L. injection L as <-. exists d. split; [reflexivity|]. eapply parse_typed; [|exact E2]. intros n v J. discriminate.
  - injection D as <- _. cbn [hid] in HS. rewrite HS, LS in L. discriminate.
Qed.
Definition is_num (v : val) : Prop := v = VNone \/ exists z, v = VI false 1 z.
Lemma typed_get s d n a : typed (s_attrs s) d -> find_attr n (s_attrs s) = Some a -> getattr (VObj (CMsg s) d) n = default_of (a_ty a) \/ SpecClass.has_type (a_ty a) (getattr (VObj (CMsg s) d) n).
Proof.
  intros T F. rewrite getattr_spec. destruct (aget n d) as [v|] eqn:E.
  - right. destruct (T _ _ E) as (a' & F' & Y). rewrite F in F'. injection F' as <-. exact Y.
  - left. destruct (find_attr_declared n (s_attrs s)) as [[E1 E2]|(x & E1 & E2 & _)]; rewrite E1 in F; [discriminate|]. injection F as ->. rewrite E2. reflexivity.
Qed.
Lemma group_fields c bs m : decode bs = Ok m -> hid m = group_h c ->
  is_num (getattr m "groupingIdentifier") /\ is_num (getattr m "maxNodesSupported") /\ (getattr m "nodes" = VList [] \/ exists l, getattr m "nodes" = VNodes l).
Proof.
  intros D H. unfold group_h in H. destruct (supports c 142).
  - destruct (decode_typed bs m m_MultiChannelAssociation_MultiChannelReport D H) as (d & -> & T); [discriminate|reflexivity|]. unfold is_num.
    destruct (typed_get _ _ "groupingIdentifier" _ T eq_refl) as [A|A]; destruct (typed_get _ _ "maxNodesSupported" _ T eq_refl) as [B|B]; destruct (typed_get _ _ "nodes" _ T eq_refl) as [C|C]; cbn [a_ty default_of SpecClass.has_type] in *; auto.
  - destruct (decode_typed bs m m_Association_Report D H) as (d & -> & T); [discriminate|reflexivity|]. unfold is_num.
    destruct (typed_get _ _ "groupingIdentifier" _ T eq_refl) as [A|A]; destruct (typed_get _ _ "maxNodesSupported" _ T eq_refl) as [B|B]; destruct (typed_get _ _ "nodes" _ T eq_refl) as [C|C]; cbn [a_ty default_of SpecClass.has_type] in *; auto.
Qed.
Lemma count_fields bs m : decode bs = Ok m -> hid m = s_hid m_Association_GroupingsReport -> is_num (getattr m "supportedGroupings").
Proof.
  intros D H. destruct (decode_typed bs m m_Association_GroupingsReport D H) as (d & -> & T); [discriminate|reflexivity|]. unfold is_num.
  destruct (typed_get _ _ "supportedGroupings" _ T eq_refl) as [A|A]; cbn [a_ty default_of SpecClass.has_type] in *; auto.
Qed.
Lemma sensor_fields bs m : decode bs = Ok m -> hid m = s_hid m_SensorMultilevel_SupportedSensorReport -> getattr m "bitMask" = VNone \/ exists l, getattr m "bitMask" = VSensors l.
Proof.
  intros D H. destruct (decode_typed bs m m_SensorMultilevel_SupportedSensorReport D H) as (d & -> & T); [discriminate|reflexivity|].
  destruct (typed_get _ _ "bitMask" _ T eq_refl) as [A|A]; cbn [a_ty default_of SpecClass.has_type] in *; auto.
Qed.
Lemma scale_fields bs m : decode bs = Ok m -> hid m = s_hid m_SensorMultilevel_SupportedScaleReport ->
  is_num (getattr m "sensorType") /\ (getattr m "scaleBitMask" = VNone \/ exists z, getattr m "scaleBitMask" = VB 4 z).
Proof.
  intros D H. destruct (decode_typed bs m m_SensorMultilevel_SupportedScaleReport D H) as (d & -> & T); [discriminate|reflexivity|]. unfold is_num.
  destruct (typed_get _ _ "sensorType" _ T eq_refl) as [A|A]; destruct (typed_get _ _ "scaleBitMask" _ T eq_refl) as [B|B]; cbn [a_ty default_of SpecClass.has_type] in *; auto.
Qed.

(** ** which questions are which *)
Lemma count_is c w : says (wq c w) count_question = true <-> w = PGet.
Proof.
  split; [|intros ->; exact count_wire]. intros H. destruct w as [|i size rest| |od|k rest]; [reflexivity| | | |]; exfalso; apply says_eq in H; cbn [wq] in H.
  - assert (B : byte i) by (unfold group_q in H; destruct (supports c 142); [exact (byte1 _ _ H)|exact (byte2 _ _ H)]). pose proof (group_wire c i B) as W. apply says_eq in W. rewrite W in H. discriminate.
  - pose proof (group_wire c 1 ltac:(unfold byte; lia)) as W. apply says_eq in W. rewrite W in H. discriminate.
  - vm_compute in H. discriminate.
  - assert (B : byte k) by exact (byte3 _ _ H). pose proof (scale_wire k B) as W. apply says_eq in W. rewrite W in H. discriminate.
Qed.
Lemma sensor_is c w : says (wq c w) sensor_question = true <-> exists od, w = PSensors od.
Proof.
  split; [|intros [od ->]; exact sensor_wire]. intros H. destruct w as [|i size rest| |od|k rest]; [| | |eexists; reflexivity|]; exfalso; apply says_eq in H; cbn [wq] in H.
  - vm_compute in H. discriminate.
  - assert (B : byte i) by (unfold group_q in H; destruct (supports c 142); [exact (byte1 _ _ H)|exact (byte2 _ _ H)]). pose proof (group_wire c i B) as W. apply says_eq in W. rewrite W in H. discriminate.
  - pose proof (group_wire c 1 ltac:(unfold byte; lia)) as W. apply says_eq in W. rewrite W in H. discriminate.
  - assert (B : byte k) by exact (byte3 _ _ H). pose proof (scale_wire k B) as W. apply says_eq in W. rewrite W in H. discriminate.
Qed.
Definition of_group (w : pwait) : option Z := match w with PGroup i _ _ => Some i | PLast => Some 1 | _ => None end.
Lemma group_is c w i : byte i -> says (wq c w) (group_question c i) = true <-> of_group w = Some i.
Proof.
  intros BI. split.
  - intros H. destruct w as [|j size rest| |od|k rest]; cbn [wq of_group] in *.
    + apply says_eq in H. vm_compute in H. discriminate.
    + f_equal. exact (group_inv _ _ _ H).
    + f_equal. exact (group_inv _ _ _ H).
    + apply says_eq in H. vm_compute in H. discriminate.
    + exfalso. apply says_eq in H. assert (B : byte k) by exact (byte3 _ _ H). pose proof (scale_wire k B) as W. apply says_eq in W. rewrite W in H. unfold group_question, scale_question in H. injection H as H _. destruct (dmem _ _ _); discriminate.
  - destruct w as [|j size rest| |od|k rest]; cbn [wq of_group]; intros H; try discriminate; injection H as <-; apply group_wire; exact BI.
Qed.
Definition of_scale (w : pwait) : option Z := match w with PScale k _ => Some k | _ => None end.
Lemma scale_is c w k : byte k -> says (wq c w) (scale_question k) = true <-> of_scale w = Some k.
Proof.
  intros BI. split.
  - intros H. destruct w as [|j size rest| |od|j rest]; cbn [wq of_scale] in *.
    + apply says_eq in H. vm_compute in H. discriminate.
    + exfalso. apply says_eq in H. assert (B : byte j) by (unfold group_q in H; destruct (supports c 142); [exact (byte1 _ _ H)|exact (byte2 _ _ H)]). pose proof (group_wire c j B) as W. apply says_eq in W. rewrite W in H. unfold group_question, scale_question in H. injection H as H _. destruct (dmem _ _ _); discriminate.
    + exfalso. apply says_eq in H. pose proof (group_wire c 1 ltac:(unfold byte; lia)) as W. apply says_eq in W. rewrite W in H. unfold group_question, scale_question in H. injection H as H _. destruct (dmem _ _ _); discriminate.
    + apply says_eq in H. vm_compute in H. discriminate.
    + f_equal. exact (scale_inv _ _ H).
  - destruct w as [|j size rest| |od|j rest]; cbn [wq of_scale]; intros H; try discriminate; injection H as <-; apply scale_wire; exact BI.
Qed.

(** ** the tables after an answer *)
Lemma dget_mem {V} k (d : list (Z * V)) : dmem Z.eqb k d = match dget Z.eqb k d with Some _ => true | None => false end.
Proof. reflexivity. Qed.
Lemma num_groups_get n gs i : dget Z.eqb i (set_num_groups n gs) = match dget Z.eqb i gs with Some g => Some g | None => if (1 <=? i) && (i <=? n) then Some (mkG 0 []) else None end.
Proof.
  unfold set_num_groups. assert (G : forall k gs, dget Z.eqb i (fold_left (fun gs i => if dmem Z.eqb (Z.of_nat i) gs then gs else dset Z.eqb (Z.of_nat i) (mkG 0 []) gs) (seq 1 k) gs) =
    match dget Z.eqb i gs with Some g => Some g | None => if (1 <=? i) && (i <=? Z.of_nat k) then Some (mkG 0 []) else None end).
  { clear. induction k as [|k IH]; intros gs. { cbn [seq fold_left]. destruct (dget Z.eqb i gs); [reflexivity|]. replace ((1 <=? i) && (i <=? Z.of_nat 0)) with false by lia. reflexivity. }
    rewrite seq_S, fold_left_app. cbn [fold_left]. set (g1 := fold_left _ (seq 1 k) gs) in *. specialize (IH gs). fold g1 in IH. rewrite dget_mem.
    destruct (dget Z.eqb (Z.of_nat (1 + k)) g1) eqn:E.
    - rewrite IH. destruct (dget Z.eqb i gs) eqn:E2; [reflexivity|]. destruct (Z.eqb_spec i (Z.of_nat (1 + k))) as [->|N].
      + rewrite E in IH. replace ((1 <=? Z.of_nat (1 + k)) && (Z.of_nat (1 + k) <=? Z.of_nat k)) with false in IH by lia. discriminate.
      + replace (i <=? Z.of_nat (S k)) with (i <=? Z.of_nat k) by lia. reflexivity.
    - rewrite NodeProofs.dget_dset. destruct (Z.eqb_spec i (Z.of_nat (1 + k))) as [->|N].
      + rewrite IH in E. destruct (dget Z.eqb _ gs); [discriminate|]. replace ((1 <=? Z.of_nat (1 + k)) && (Z.of_nat (1 + k) <=? Z.of_nat (S k))) with true by lia. reflexivity.
      + rewrite IH. replace (i <=? Z.of_nat (S k)) with (i <=? Z.of_nat k) by lia. reflexivity. }
  rewrite G. destruct (dget Z.eqb i gs); [reflexivity|]. replace (i <=? Z.of_nat (Z.to_nat n)) with ((i <=? n) || (i <=? 0) ) by lia. destruct (Z.leb_spec 1 i); [|reflexivity]. replace (i <=? 0) with false by lia. rewrite orb_false_r. reflexivity.
Qed.
Definition put_group (i : Z) (gs : groupings) (l : list group) : groupings := match dget Z.eqb i gs, l with Some _, [g] => dset Z.eqb i g gs | _, _ => gs end.
Definition record_result (i : Z) (m : val) : res unit :=
  match number "groupingIdentifier" m, number "maxNodesSupported" m with
  | [j], [_] => Ok tt
  | [j], _ => if j =? i then Err EType else Ok tt
  | _, _ => Ok tt
  end.
Lemma record_is c bs i m gs : decode bs = Ok m -> hid m = group_h c -> dget Z.eqb i gs <> None -> record_group i m gs = (put_group i gs (about i m), record_result i m).
Proof.
  intros D H K. destruct (group_fields c bs m D H) as (A & B & C). unfold record_group, about, record_result, put_group, SpecAssoc.number.
  destruct (dget Z.eqb i gs) as [g|] eqn:G; [|destruct (K eq_refl)].
  destruct A as [->|[j ->]]; cbn [to_int]; [reflexivity|]. destruct B as [->|[mx ->]]; cbn [to_int]; destruct (j =? i) eqn:E; try reflexivity.
  destruct C as [->|[l ->]]; reflexivity.
Qed.
(** what an answer does to the tables *)
Definition new_groups (c : classes) (w : pwait) (m : val) (gs : groupings) : groupings :=
  match of_group w with
  | Some i => put_group i gs (about i m)
  | None => match w, SpecAssoc.number "supportedGroupings" m with PGet, [n] => set_num_groups n gs | _, _ => gs end
  end.
Definition new_types (w : pwait) (m : val) (ts : list (Z * Z)) : list (Z * Z) :=
  match of_scale w, SpecAssoc.number "scaleBitMask" m with Some k, [v] => dset Z.eqb k v ts | _, _ => ts end.
Lemma got_tables c w bs m gs ts gs' ts' a : decode bs = Ok m -> hid m = wh c w -> (forall i, of_group w = Some i -> dget Z.eqb i gs <> None) -> got c w (Ok m) gs ts = (gs', ts', a) ->
  gs' = new_groups c w m gs /\ ts' = new_types w m ts.
Proof.
  intros D H K G. destruct w as [|i size rest| |od|k rest]; cbn [got of_group wh] in *; unfold new_groups, new_types; cbn [of_group of_scale].
  - destruct (count_fields bs m D H) as [E|[z E]]; unfold SpecAssoc.number; rewrite E in *; cbn [to_int] in G; injection G as <- <- _; split; reflexivity.
  - rewrite (record_is c bs i m gs D H (K _ eq_refl)) in G. destruct (record_result i m) as [[]|[]]; injection G as <- <- _; split; reflexivity.
  - rewrite (record_is c bs 1 m gs D H (K _ eq_refl)) in G. injection G as <- <- _. split; reflexivity.
  - destruct (sensor_fields bs m D H) as [E|[l E]]; rewrite E in G; injection G as <- <- _; split; reflexivity.
  - destruct (scale_fields bs m D H) as [_ [E|[z E]]]; unfold SpecAssoc.number; rewrite E in *; cbn [to_int] in G; injection G as <- <- _; split; reflexivity.
Qed.
Lemma got_err c w e gs ts : exists a, got c w (Err e) gs ts = (gs, ts, a).
Proof. destruct w; cbn; try (eexists; reflexivity). destruct e; eexists; reflexivity. Qed.

(** ** groups stay *)
Definition has (gs : groupings) (k : Z) : Prop := dget Z.eqb k gs <> None.
Definition ready (gs : groupings) (p : ppc) : Prop :=
  match p with
  | PSusp _ (PGroup i _ rest) => has gs i /\ Forall (has gs) rest
  | PSusp _ PLast | PSending => has gs 1
  | _ => True
  end.
Definition grow (gs gs' : groupings) : Prop := forall k, has gs k -> has gs' k.
Lemma grow_refl gs : grow gs gs. Proof. intros k H. exact H. Qed.
Lemma grow_set i g gs : grow gs (dset Z.eqb i g gs).
Proof. intros k H. unfold has in *. rewrite NodeProofs.dget_dset. destruct (k =? i); [discriminate|exact H]. Qed.
Lemma grow_num n gs : grow gs (set_num_groups n gs).
Proof. intros k H. unfold has in *. rewrite num_groups_get. destruct (dget Z.eqb k gs); [discriminate|destruct (H eq_refl)]. Qed.
Lemma grow_record i m gs : grow gs (fst (record_group i m gs)).
Proof.
  unfold record_group. destruct (dget Z.eqb i gs) as [g|]; [|apply grow_refl]. destruct (to_int _) as [j|]; [|apply grow_refl]. destruct (j =? i); [|apply grow_refl]. destruct (to_int _) as [mx|]; [|apply grow_refl].
  destruct (setattr_coerce _ _) as [[]|]; apply grow_set.
Qed.
Lemma grow_ready gs gs' p : grow gs gs' -> ready gs p -> ready gs' p.
Proof. intros G. destruct p as [u [|i size rest| |od|k rest]| |r]; cbn; auto. intros [A B]. split; [apply G, A|]. eapply Forall_impl; [|exact B]. exact G. Qed.
Lemma has_keys gs : Forall (has gs) (map fst gs).
Proof.
  apply Forall_forall. intros k J. induction gs as [|[k' g] gs IH]; [destruct J|]. unfold has in *. cbn. destruct (Z.eqb_spec k k'); [discriminate|]. destruct J as [J|J]; [cbn in J; congruence|exact (IH J)].
Qed.
Lemma ready_life c gs n : ready gs (pc_of n (lifeline c gs)).
Proof. rewrite lifeline_is. destruct (supports c 94); [|exact I]. destruct (dget Z.eqb 1 gs) as [g|] eqn:E; [|exact I]. destruct (contains _ _ _); [exact I|]. change (has gs 1). unfold has. rewrite E. discriminate. Qed.
Lemma ready_next c gs size rest n : Forall (has gs) rest -> ready gs (pc_of n (next_group c gs size rest)).
Proof.
  intros F. unfold next_group. destruct (Nat.eqb _ _); [|exact I]. destruct rest as [|i rest]; [apply ready_life|]. rewrite ask_group_is. cbn. inversion F; subst. split; assumption.
Qed.
Lemma got_ready c w r gs ts gs' ts' a n u : got c w r gs ts = (gs', ts', a) -> ready gs (PSusp u w) -> grow gs gs' /\ ready gs' (pc_of n a).
Proof.
  intros G R. destruct r as [m|e].
  - destruct w as [|i size rest| |od|k rest]; cbn [got] in G; cbn [ready] in R.
    + destruct (to_int _) as [z|]; injection G as <- <- <-; [|split; [apply grow_refl|exact I]]. split; [apply grow_num|]. apply ready_next, has_keys.
    + destruct R as [R1 R2]. pose proof (grow_record i m gs) as GR. destruct (record_group i m gs) as [g x]. cbn [fst] in GR.
      assert (F : Forall (has g) rest) by (eapply Forall_impl; [exact GR|exact R2]).
      destruct x as [[]|[]]; injection G as <- <- <-; (split; [exact GR|]); try exact I; apply ready_next, F.
    + pose proof (grow_record 1 m gs) as GR. destruct (record_group 1 m gs) as [g x]. injection G as <- <- <-. split; [exact GR|exact I].
    + destruct (getattr m "bitMask"); injection G as <- <- <-; (split; [apply grow_refl|]); try exact I. rewrite next_scale_is. match goal with |- ready _ (pc_of _ (match ?l with _ => _ end)) => destruct l end; exact I.
    + destruct (to_int _); injection G as <- <- <-; (split; [apply grow_refl|]); [|exact I]. rewrite next_scale_is. destruct rest; exact I.
  - destruct (got_err c w e gs ts) as [a' E]. rewrite E in G. injection G as <- <- <-. split; [apply grow_refl|].
    destruct w as [|i size rest| |od|k rest]; cbn in E; try (injection E as <-; exact I). destruct e; injection E as <-; try exact I. apply ready_next, R.
Qed.
Definition all_ready (s : pstate) : Prop := forall t p, nth_error (p_tasks s) t = Some p -> ready (p_groups s) p.
Lemma turn_ready s e n osn t hd gs ts a : all_ready s -> turn s e n osn t hd gs ts a -> grow (p_groups s) gs /\ ready gs (pc_of n a).
Proof.
  intros AR [e0 n0 osn0 u r t0 w gs0 ts0 a0 _ _ Q G|x|t0 [b|x] Q].
  - eapply got_ready; [exact G|]. exact (AR _ _ Q).
  - split; [apply grow_refl|]. destruct x as [|v od]; cbn; [exact I|]. destruct (v <? 5); exact I.
  - split; [apply grow_refl|]. rewrite ask_group_is. exact (AR _ _ Q).
  - split; [apply grow_refl|exact I].
Qed.
Lemma ready_step s e s' os : all_ready s -> pstep s e = Some (s', os) -> all_ready s' /\ grow (p_groups s) (p_groups s').
Proof.
  intros AR H. destruct (step_cases s e s' os H) as [(e' & n & osn & -> & ST & -> & -> & NW)|(n & osn & t & hd & gs & ts & a & n' & TN & NA & -> & ->)]; [split; [exact AR|apply grow_refl]|].
  destruct (turn_ready _ _ _ _ _ _ _ _ _ AR TN) as [G R]. split; [|exact G]. intros t' p Q. cbn in Q. destruct (put_at _ _ _ _ _ Q (turn_len _ _ _ _ _ _ _ _ _ TN)) as [[-> ->]|[_ Y]]; [exact R|]. cbn [p_groups]. eapply grow_ready; [exact G|]. exact (AR _ _ Y).
Qed.
Lemma ready_exec c gs ts es s tr : pexec (pstate0 c gs ts) es s tr -> all_ready s /\ grow gs (p_groups s).
Proof.
  induction 1 as [|es s tr e s' os X [A G] ST]; [split; [intros [|t] p Q; discriminate|apply grow_refl]|]. destruct (ready_step _ _ _ _ A ST) as [A' G']. split; [exact A'|]. intros k H. apply G', G, H.
Qed.

(** ** what the tables hold *)
Lemma wire_app a b : from_wire (a ++ b) -> from_wire a. Proof. intros W n m r J. apply (W n m r). apply in_or_app. auto. Qed.
(** a step either leaves the tables and the answers, or there is one answer to the question of a suspended task *)
Inductive effect (s : pstate) (tr : ptrace) (s' : pstate) (os : list pobs) : Prop :=
| E_none : p_groups s' = p_groups s -> p_types s' = p_types s -> (forall w, new w s tr os = []) -> effect s tr s' os
| E_ans t u w m bs : nth_error (p_tasks s) t = Some (PSusp u w) -> Forall byte bs -> decode bs = Ok m -> hid m = wh (p_cls s) w -> In (PONet (NRet u (RMsg m))) os ->
    p_groups s' = new_groups (p_cls s) w m (p_groups s) -> p_types s' = new_types w m (p_types s) ->
    (forall q, new q s tr os = if says (wq (p_cls s) w) q then [m] else []) -> effect s tr s' os.
Lemma step_effect s tr e s' os : linked s tr -> all_ready s -> from_wire (tr ++ pstamp (n_now (p_net s)) os) -> pstep s e = Some (s', os) -> effect s tr s' os.
Proof.
  intros L AR W H. destruct (step_cases s e s' os H) as [Q|(n & osn & t & hd & gs & ts & a & n' & TN & NA & -> & ->)].
  { pose proof (quiet_answers s tr e s' os) as QA. destruct Q as (e' & n & osn & -> & ST & -> & -> & NW). apply E_none; [reflexivity|reflexivity|]. intros w. apply (QA w L). do 3 eexists. eauto 10. }
  pose proof (fun w => turn_answers s tr e n osn t hd gs ts a w L TN) as TA.
  destruct TN as [e0 n0 osn0 u r t0 w gs0 ts0 a0 ST R Q G|x|t0 r Q].
  - rewrite R, Q in TA. destruct r as [b|m|x].
    + apply E_none; [| |exact TA]; destruct (got_err (p_cls s) w EUnmodelled (p_groups s) (p_types s)) as [a' E]; cbn [value_of] in G; rewrite E in G; injection G as <- <- _; reflexivity.
    + cbn [value_of] in G. assert (IR : In (NRet u (RMsg m)) osn0) by exact (InterviewProofs.returned_in _ _ _ R).
      destruct (reply_wire _ _ _ _ _ _ _ _ _ _ L ST IR Q W) as (HH & bs & B & D).
      destruct (got_tables (p_cls s) w bs m (p_groups s) (p_types s) gs0 ts0 a0 D HH) as [E1 E2]; [|exact G|].
      { intros i O. pose proof (AR _ _ Q) as RD. cbn in RD. destruct w; try discriminate; injection O as <-; cbn in RD; apply RD. }
      apply (E_ans _ _ _ _ t0 u w m bs Q B D HH); [|exact E1|exact E2|exact TA]. apply in_or_app. left. apply in_map, IR.
    + apply E_none; [| |exact TA]; destruct (got_err (p_cls s) w x (p_groups s) (p_types s)) as [a' E]; cbn [value_of] in G; rewrite E in G; injection G as <- <- _; reflexivity.
  - apply E_none; [reflexivity|reflexivity|exact TA].
  - apply E_none; [reflexivity|reflexivity|exact TA].
Qed.
Lemma about_one i m : about i m = [] \/ exists g, about i m = [g].
Proof. unfold about. destruct (SpecAssoc.number _ _) as [|j [|? ?]]; auto. destruct (SpecAssoc.number _ _) as [|x [|? ?]]; auto. destruct (j =? i); eauto. Qed.
Lemma number_one f m : SpecAssoc.number f m = [] \/ exists z, SpecAssoc.number f m = [z].
Proof. unfold SpecAssoc.number. destruct (getattr m f); eauto. Qed.
Lemma put_other i j gs l : i <> j -> dget Z.eqb i (put_group j gs l) = dget Z.eqb i gs.
Proof. intros N. unfold put_group. destruct (dget Z.eqb j gs); [|reflexivity]. destruct l as [|g2 [|? ?]]; try reflexivity. rewrite NodeProofs.dget_dset. destruct (Z.eqb_spec i j); [contradiction|reflexivity]. Qed.
Lemma last_snoc {A} (l : list A) x d : last (l ++ [x]) d = x.
Proof. induction l as [|y l IH]; [reflexivity|]. cbn [app last]. destruct (l ++ [x]) eqn:E; [destruct l; discriminate|exact IH]. Qed.
Lemma tables_exec c gs ts es s tr : pexec (pstate0 c gs ts) es s tr -> from_wire tr ->
  (forall i, byte i -> dget Z.eqb i (p_groups s) = known_group c gs i tr /\ (answers (group_question c i) tr <> [] -> has (p_groups s) i)) /\ (forall k, byte k -> dget Z.eqb k (p_types s) = known_scales ts k tr).
Proof.
  induction 1 as [|es s tr e s' os X IH ST]; intros W.
  - split; [|reflexivity]. intros i _. split; [|intros N; destruct (N eq_refl)]. cbn [p_groups pstate0]. unfold known_group. rewrite dget_mem. cbn. destruct (dget Z.eqb i gs); reflexivity.
  - specialize (IH (wire_app _ _ W)). destruct IH as [IG IT]. destruct (linked_exec _ _ _ _ _ _ X) as [L C]. destruct (ready_exec _ _ _ _ _ _ X) as [AR _].
    destruct (step_effect s tr e s' os L AR W ST) as [EG ET NA|t u w m bs Q B D HH IR EG ET NA].
    { assert (AN : forall q, answers q (tr ++ pstamp (n_now (p_net s)) os) = answers q tr) by (intros q; unfold answers; rewrite answers_app; fold (new q s tr os); rewrite NA; apply app_nil_r).
      split; [intros i BI|intros k BK]; [rewrite EG; unfold known_group, counted, has; rewrite !AN; exact (IG i BI)|rewrite ET; unfold known_scales; rewrite AN; exact (IT k BK)]. }
    assert (AN : forall q, answers q (tr ++ pstamp (n_now (p_net s)) os) = answers q tr ++ (if says (wq c w) q then [m] else [])) by (intros q; unfold answers; rewrite answers_app; fold (new q s tr os); rewrite NA, C; reflexivity).
    rewrite C in *. clear NA. split.
    + intros i BI. destruct (IG i BI) as [IG1 IG2]. unfold known_group, counted, has in *. rewrite !AN, !flat_map_app, existsb_app. rewrite EG. unfold new_groups.
      destruct (of_group w) as [j|] eqn:O.
      * assert (NC : says (wq c w) count_question = false) by (apply Bool.not_true_iff_false; rewrite count_is; intros ->; discriminate). rewrite NC. cbn [flat_map existsb]. rewrite orb_false_r.
        assert (HJ : dget Z.eqb j (p_groups s) <> None) by (pose proof (AR _ _ Q) as RD; destruct w; try discriminate; injection O as <-; cbn in RD; apply RD).
        destruct (Z.eq_dec i j) as [->|N].
        -- assert (GS : says (wq c w) (group_question c j) = true) by (apply group_is; assumption). rewrite GS. cbn [flat_map]. rewrite app_nil_r. unfold put_group.
           destruct (dget Z.eqb j (p_groups s)) as [g0|] eqn:E; [|destruct (HJ eq_refl)]. destruct (dmem Z.eqb j gs || existsb _ _) eqn:K in IG1; [|discriminate]. rewrite K.
           destruct (about_one j m) as [A|[g A]]; rewrite A.
           ++ rewrite app_nil_r. split; [rewrite E; exact IG1|rewrite E; discriminate].
           ++ rewrite NodeProofs.dget_dset, Z.eqb_refl, last_snoc. split; [reflexivity|discriminate].
        -- assert (GS : says (wq c w) (group_question c i) = false) by (apply Bool.not_true_iff_false; rewrite group_is by exact BI; rewrite O; congruence). rewrite GS. cbn [flat_map]. rewrite !app_nil_r. rewrite put_other by exact N. split; assumption.
      * assert (GS : says (wq c w) (group_question c i) = false) by (apply Bool.not_true_iff_false; rewrite group_is by exact BI; rewrite O; congruence). rewrite GS. cbn [flat_map]. rewrite !app_nil_r.
        destruct (says (wq c w) count_question) eqn:NC.
        -- apply count_is in NC. subst w. cbn [flat_map]. rewrite app_nil_r. destruct (number_one "supportedGroupings" m) as [E|[z E]]; rewrite E; [cbn; rewrite orb_false_r; split; assumption|].
           rewrite num_groups_get. cbn [existsb]. rewrite orb_false_r. destruct (dget Z.eqb i (p_groups s)) as [g|] eqn:K.
           ++ destruct (dmem Z.eqb i gs || existsb _ _) eqn:K2 in IG1; [|discriminate]. rewrite orb_assoc, K2. cbn [orb]. split; [exact IG1|discriminate].
           ++ destruct (dmem Z.eqb i gs || existsb _ _) eqn:K2 in IG1; [discriminate|]. rewrite orb_assoc, K2. cbn [orb]. apply orb_false_iff in K2 as [K2 _]. rewrite dget_mem in K2. destruct (dget Z.eqb i gs); [discriminate|].
              assert (AE : answers (group_question c i) tr = []) by (destruct (answers (group_question c i) tr); [reflexivity|destruct (IG2 ltac:(discriminate) eq_refl)]). rewrite AE. cbn. split; [reflexivity|intros NN; destruct (NN eq_refl)].
        -- assert (E : match w, SpecAssoc.number "supportedGroupings" m with PGet, [n] => set_num_groups n (p_groups s) | _, _ => p_groups s end = p_groups s).
           { destruct w; try reflexivity. rewrite (proj2 (count_is c PGet) eq_refl) in NC. discriminate. }
           rewrite E. cbn [flat_map existsb]. rewrite orb_false_r. split; assumption.
    + intros k BK. specialize (IT k BK). unfold known_scales in *. rewrite AN, flat_map_app, map_app, ET. unfold new_types.
      destruct (of_scale w) as [j|] eqn:O.
      * destruct (Z.eq_dec k j) as [->|N].
        -- rewrite (proj2 (scale_is c w j BK) O). cbn [flat_map]. rewrite app_nil_r. destruct (number_one "scaleBitMask" m) as [E|[z E]]; rewrite E; [cbn; rewrite app_nil_r; exact IT|].
           cbn [map]. rewrite NodeProofs.dget_dset, Z.eqb_refl, last_snoc. reflexivity.
        -- assert (GS : says (wq c w) (scale_question k) = false) by (apply Bool.not_true_iff_false; rewrite scale_is by exact BK; rewrite O; congruence). rewrite GS. cbn. rewrite app_nil_r.
           destruct (number_one "scaleBitMask" m) as [E|[z E]]; rewrite E; [exact IT|]. rewrite NodeProofs.dget_dset. destruct (Z.eqb_spec k j); [contradiction|exact IT].
      * assert (GS : says (wq c w) (scale_question k) = false) by (apply Bool.not_true_iff_false; rewrite scale_is by exact BK; rewrite O; congruence). rewrite GS. cbn. rewrite app_nil_r. exact IT.
Qed.
