(** Proofs about command classes. *)
From Coq Require Import String ZArith List Bool Lia ZifyBool FinFun.
From Verif Require Import Py Schema Registry Codec NodeM Listen CmdClass SpecNode SpecClass.
From Verif Require Import BitLemmas SpecBits ValueProofs NodeProofs.
Import ListNotations.
Open Scope list_scope.
Open Scope string_scope.
Open Scope list_scope.
Open Scope Z_scope.

(** ** Interviews *)
Lemma interviews_app id s a b : fst (interviews id s (a ++ b)) = fst (interviews id (fst (interviews id s a)) b).
Proof.
  revert s. induction a as [|x a IH]; intros s; [reflexivity|]. cbn [interviews app]. destruct (interview_once id x s) as [[s1 o] r].
  specialize (IH s1). destruct (interviews id s1 (a ++ b)) as [s2 l2]. destruct (interviews id s1 a) as [s3 l3]. cbn in *. exact IH.
Qed.
Definition after id h := fst (interviews id cc0 h).
Lemma after_snoc id h a : after id (h ++ [a]) = fst (fst (interview_once id a (after id h))).
Proof.
  unfold after. rewrite interviews_app. cbn. destruct (interview_once id a (fst (interviews id cc0 h))) as [[s o] r]. reflexivity.
Qed.
Lemma known_snoc id h a : version_known id (h ++ [a]) <-> version_known id h \/ (id <> 0 /\ exists n, at_version a = Ok n /\ n <> 0).
Proof.
  unfold version_known. split.
  - intros (I & x & n & J & E). apply in_app_or in J. destruct J as [J|[<-|[]]]; [left|right]; split; eauto.
  - intros [(I & x & n & J & E)|(I & n & E)]; (split; [exact I|]); [exists x, n|exists a, n]; (split; [apply in_or_app; cbn; auto|exact E]).
Qed.
Lemma after_version id h : (cc_version (after id h) <> 0 <-> version_known id h) /\ (cc_interviewed (after id h) = true -> cc_version (after id h) <> 0).
Proof.
  induction h as [|a h IH] using rev_ind.
  - unfold version_known. cbn. split; [|discriminate]. split; [lia|]. intros (_ & x & n & [] & _).
  - rewrite after_snoc, known_snoc. destruct (after id h) as [v i]. cbn in IH. destruct IH as [IH IH2]. rewrite <- IH. clear IH.
    unfold interview_once, request_version. cbn. destruct a as [av ab]. cbn.
    destruct (v =? 0) eqn:V.
    + assert (v = 0) by lia. subst v. destruct i; [exfalso; destruct IH2; reflexivity|].
      destruct (id =? 0) eqn:I; cbn.
      * split; [|discriminate]. split; [lia|]. intros [H|[H _]]; lia.
      * destruct av as [n|e]; cbn.
        -- destruct (n =? 0) eqn:N; cbn.
           ++ split; [|discriminate]. split; [lia|]. intros [H|(_ & k & [= <-] & K)]; lia.
           ++ assert (forall i', (cc_version (mkCC n i') <> 0 <-> 0 <> 0 \/ id <> 0 /\ exists k, @Ok Z n = Ok k /\ k <> 0) /\ (cc_interviewed (mkCC n i') = true -> cc_version (mkCC n i') <> 0)) as G
                by (intros i'; cbn; split; [|lia]; split; [intros _; right; split; [lia|]; exists n; split; [reflexivity|lia]|lia]).
              destruct ab as [[[|]|]|e]; cbn; try apply G. destruct e; apply G.
        -- assert ((0 <> 0 <-> 0 <> 0 \/ id <> 0 /\ exists n, @Err Z e = Ok n /\ n <> 0) /\ (false = true -> 0 <> 0)) as G.
           { split; [|discriminate]. split; [lia|]. intros [H|(_ & n & H & _)]; [lia|discriminate]. }
           destruct e; exact G.
    + cbn. rewrite V. assert (forall i', (cc_version (mkCC v i') <> 0 <-> v <> 0 \/ id <> 0 /\ exists k, av = Ok k /\ k <> 0) /\ (cc_interviewed (mkCC v i') = true -> cc_version (mkCC v i') <> 0)) as G
        by (intros i'; cbn; split; [|lia]; split; [intros; left; lia|lia]).
      destruct ab as [[[|]|]|e]; cbn; try apply G. destruct e; apply G.
Qed.
Lemma interviewed_iff id h : cc_interviewed (fst (interviews id cc0 h)) = true <-> exists h' a, h = h' ++ [a] /\ version_known id h /\ completes a.
Proof.
  destruct h as [|a h _] using rev_ind; [cbn; split; [discriminate|intros (h' & a & E & _); destruct h'; discriminate]|].
  assert ((exists h' a0, h ++ [a] = h' ++ [a0] /\ version_known id (h ++ [a]) /\ completes a0) <-> version_known id (h ++ [a]) /\ completes a) as ->.
  { split; [intros (h' & a0 & E & K & C); apply app_inj_tail in E; destruct E as [_ <-]; auto|intros [K C]; exists h, a; auto]. }
  fold (after id (h ++ [a])). rewrite <- (proj1 (after_version id (h ++ [a]))), after_snoc.
  pose proof (proj2 (after_version id h)) as X. destruct (after id h) as [v i]. cbn in X. destruct a as [av ab]. unfold completes. cbn.
  assert (forall v' : Z, v' <> 0 -> forall r, r <> Some false -> ab = Ok r -> (true = true <-> v' <> 0 /\ exists r, ab = Ok r /\ r <> Some false)) as G1 by (intros; split; [eauto|reflexivity]).
  assert (forall v' : Z, v' = 0 -> (false = true <-> v' <> 0 /\ exists r, ab = Ok r /\ r <> Some false)) as G2 by (intros; split; [discriminate|intros [? _]; lia]).
  assert (forall v' : Z, (forall r, ab = Ok r -> r = Some false) -> (false = true <-> v' <> 0 /\ exists r, ab = Ok r /\ r <> Some false)) as G3
    by (intros v' H; split; [discriminate|intros (_ & r & E & N); elim N; exact (H r E)]).
  unfold interview_once, request_version. cbn [cc_version cc_interviewed at_version at_body].
  destruct (v =? 0) eqn:V.
  - assert (v = 0) by lia. subst v. destruct i; [exfalso; destruct X; reflexivity|]. destruct (id =? 0); [cbn; apply G2; reflexivity|].
    destruct av as [n|e]; [|destruct e; cbn; apply G2; reflexivity]. destruct (n =? 0) eqn:N; [cbn; apply G2; lia|].
    destruct ab as [[[|]|]|e]; cbn; try (eapply G1; [lia|reflexivity || discriminate|reflexivity]). all: try (apply G3; congruence).
    + eapply G1; [lia| |reflexivity]. discriminate.
    + eapply G1; [lia| |reflexivity]. discriminate.
    + destruct e; cbn; apply G3; discriminate.
  - cbn. rewrite V. destruct ab as [[[|]|]|e]; cbn.
    + eapply G1; [lia| |reflexivity]. discriminate.
    + apply G3; congruence.
    + eapply G1; [lia| |reflexivity]. discriminate.
    + destruct e; cbn; apply G3; discriminate.
Qed.
(** an interview starts only once the version is known *)
Lemma starts_known id h a s o r : fst (interviews id cc0 h) = s -> interview_once id a s = (fst (fst (interview_once id a s)), o, r) -> In IStarts o -> version_known id (h ++ [a]).
Proof.
  intros <- E J. fold (after id h) in *. apply (proj1 (after_version id (h ++ [a]))). rewrite after_snoc.
  revert E. unfold interview_once, request_version. destruct (after id h) as [v i], a as [av ab]. cbn [cc_version cc_interviewed at_version at_body].
  destruct (v =? 0) eqn:V.
  - destruct (id =? 0); [cbn; intros [= <- _]; destruct J|]. destruct av as [n|e]; [|destruct e; cbn; intros [= <- _]; destruct J as [J|[]]; discriminate].
    destruct (n =? 0) eqn:N; [cbn; intros [= <- _]; destruct J as [J|[J|[]]]; discriminate|]. intros _. destruct ab as [[[|]|]|e]; cbn; try lia. destruct e; cbn; lia.
  - cbn. rewrite V. intros _. destruct ab as [[[|]|]|e]; cbn; try lia. destruct e; cbn; lia.
Qed.

(** ** Sensor reports *)
Lemma sensor_report_ok version types d ty m p sz sc : 5 <= version -> 0 <= sc -> aget "sensorType" d = Some (VI false 1 ty) -> aget "sensorValue" d = Some (VFloatT m p sz sc) ->
  let rep := VObj (CMsg m_SensorMultilevel_Report) d in
  exists b, sensor_report version types rep = Ok b /\ (b = false <-> exists mask, dget Z.eqb ty types = Some mask /\ Z.testbit mask sc = true).
Proof.
  intros V S T F rep. unfold sensor_report. replace (version <? 5) with false by lia. unfold rep. cbn [getattr]. rewrite T, F. cbn [to_int].
  destruct (dget Z.eqb ty types) as [mask|]; [|exists true; split; [reflexivity|split; [discriminate|intros (? & ? & _); discriminate]]].
  destruct (mask =? 0) eqn:M.
  - exists true. split; [reflexivity|]. split; [discriminate|]. intros (? & [= <-] & H). assert (mask = 0) by lia. subst mask. rewrite Z.bits_0 in H. discriminate.
  - eexists. split; [reflexivity|].
    assert (Z.land mask (Z.shiftl 1 sc) = if Z.testbit mask sc then 2 ^ sc else 0) as E.
    { apply Z.bits_inj'. intros i I. rewrite Z.land_spec, Z.shiftl_1_l. destruct (Z.eq_dec i sc) as [->|N].
      - rewrite Z.pow2_bits_true by lia. destruct (Z.testbit mask sc); [symmetry; apply Z.pow2_bits_true; lia|symmetry; apply Z.bits_0].
      - rewrite Z.pow2_bits_false by lia. rewrite andb_false_r. destruct (Z.testbit mask sc); [symmetry; apply Z.pow2_bits_false; lia|symmetry; apply Z.bits_0]. }
    rewrite E. pose proof (Z.pow_pos_nonneg 2 sc ltac:(lia) S) as PP. split.
    + intros H. exists mask. split; [reflexivity|]. destruct (Z.testbit mask sc); [reflexivity|discriminate].
    + intros (? & [= <-] & ->). lia.
Qed.
(** from the wire to the listeners *)
Lemma sensor_filter version types ty hdr val tl ls : 5 <= version -> bytes_ok (ty :: hdr :: val ++ tl) -> zlen val = hdr mod 8 ->
  exists m, decode (49 :: 5 :: ty :: hdr :: val ++ tl) = Ok m /\
    (In SClassListeners (fst (class_handle m (mkR (Some (sensor_report version types m)) ls))) <-> exists mask, dget Z.eqb ty types = Some mask /\ Z.testbit mask (hdr / 8 mod 4) = true).
Proof.
  intros V B L. destruct (sensor_value ty hdr val tl B) as [S _]. destruct (S L) as (d & D & T & F). eexists. split; [exact D|].
  assert (0 <= hdr / 8 mod 4) as NN by (pose proof (Z.mod_pos_bound (hdr / 8) 4); lia).
  destruct (sensor_report_ok version types d ty _ _ _ _ V NN T F) as (b & E & I).
  cbv zeta in E. rewrite E, <- I. cbn. destruct b; cbn; intuition discriminate.
Qed.
Lemma sensor_filter_old version types m : version < 5 -> sensor_report version types m = Ok false.
Proof. intros V. unfold sensor_report. replace (version <? 5) with true by lia. reflexivity. Qed.

(** the interview asks for each advertised sensor and records the answers *)
Lemma sensor_scales_ok (f : Z -> Z) scales ts : (forall t, In t ts -> exists m, scales t = Ok m /\ to_int (getattr m "scaleBitMask") = Ok (f t)) ->
  forall types, exists qs types', sensor_scales scales ts types = (qs, types', Ok None) /\
    map compose qs = map (fun t => compose (VObj (CMsg m_SensorMultilevel_SupportedGetScale) [("sensorType", VI false 1 t)])) ts /\
    forall k, dget Z.eqb k types' = if existsb (Z.eqb k) ts then Some (f k) else dget Z.eqb k types.
Proof.
  induction ts as [|t ts IH]; intros H types; [exists [], types; cbn; auto|]. cbn [sensor_scales].
  destruct (H t) as (m & E & M); [left; reflexivity|].
  change (new_msg m_SensorMultilevel_SupportedGetScale [("sensorType", VInt t)]) with (@Ok val (VObj (CMsg m_SensorMultilevel_SupportedGetScale) [("sensorType", VI false 1 t)])).
  rewrite E. cbn [bind]. rewrite M. destruct (IH (fun t' J => H t' (or_intror J)) (dset Z.eqb t (f t) types)) as (qs & ty & E' & Q & G). rewrite E'.
  exists (VObj (CMsg m_SensorMultilevel_SupportedGetScale) [("sensorType", VI false 1 t)] :: qs), ty. split; [reflexivity|]. split; [cbn [map]; rewrite Q; reflexivity|].
  intros k. rewrite G, dget_dset. cbn. destruct (existsb (Z.eqb k) ts) eqn:X; [rewrite orb_true_r; reflexivity|]. rewrite orb_false_r.
  rewrite (Z.eqb_sym k t). destruct (t =? k) eqn:N; [f_equal; f_equal; lia|reflexivity].
Qed.

(** ** Associations *)
Lemma contains_controller l : contains l 1 0 = true <-> controller_in l.
Proof.
  unfold contains, controller_in. rewrite existsb_exists. split.
  - intros ((a & e) & J & E). cbn [fst snd] in E. destruct e as [x|].
    + right. assert (a = 1 /\ x = 0) as [-> ->] by lia. exact J.
    + left. assert (a = 1) as -> by lia. exact J.
  - intros [J|J]; [exists (1, None)|exists (1, Some 0)]; auto.
Qed.
Lemma interview_group_shape n i ask gs d gs' r : interview_group n i ask gs = (d, gs', r) -> forall c, In (DSet c) d -> False.
Proof.
  unfold interview_group. intros E c J. destruct (dget Z.eqb i gs); [|injection E as <- _ _; destruct J].
  destruct (new_msg _ _) as [q|]; [|injection E as <- _ _; destruct J].
  destruct (ask q) as [m|]; [|injection E as <- _ _; destruct J as [J|[]]; discriminate].
  destruct (to_int (getattr m "groupingIdentifier")); [|injection E as <- _ _; destruct J as [J|[]]; discriminate].
  destruct (_ =? _); [|injection E as <- _ _; destruct J as [J|[]]; discriminate].
  destruct (to_int (getattr m "maxNodesSupported")); [|injection E as <- _ _; destruct J as [J|[]]; discriminate].
  destruct (setattr_coerce TNodes _) as [v|]; [|injection E as <- _ _; destruct J as [J|[]]; discriminate].
  destruct v; injection E as <- _ _; destruct J as [J|[]]; discriminate.
Qed.
Lemma lifeline_set n send ask gs d gs' r : setup_lifeline n send ask gs = (d, gs', r) ->
  let needed := supports n 94 = true /\ exists g, dget Z.eqb 1 gs = Some g /\ ~ controller_in (g_nodes g) in
  (~ needed -> d = [] /\ gs' = gs /\ r = Ok tt) /\
  (needed -> exists c d', d = DSet c :: d' /\ (forall x, ~ In (DSet x) d') /\
     compose c = Ok (if supports n 96 && supports n 142 then [142; 1; 1; 0; 1; 0] else [133; 1; 1; 1])).
Proof.
  intros E needed. revert E. unfold setup_lifeline. destruct (supports n 94) eqn:P; cbn [negb].
  2: { intros [= <- <- <-]. split; [auto|]. intros [? _]. congruence. }
  destruct (dget Z.eqb 1 gs) as [g|] eqn:G.
  2: { intros [= <- <- <-]. split; [auto|]. intros (_ & g & ? & _). congruence. }
  destruct (contains (g_nodes g) 1 0) eqn:C.
  { intros [= <- <- <-]. split; [auto|]. intros (_ & g' & H & N). elim N. apply contains_controller. congruence. }
  intros E. assert (needed) as Y by (split; [reflexivity|]; exists g; split; [reflexivity|]; rewrite <- contains_controller; congruence).
  split; [intros N; elim N; exact Y|]. intros _. destruct (supports n 96 && supports n 142).
  - change (new_msg _ _) with (@Ok val (VObj (CMsg m_MultiChannelAssociation_MultiChannelSet) [("groupingIdentifier", VI false 1 1); ("nodes", VNodes [(1, Some 0)])])) in E.
    cbv iota beta in E. destruct (send _) as [b|e].
    + destruct (interview_group n 1 ask gs) as [[d' gs''] r'] eqn:IG. injection E as <- <- <-. eexists _, d'. split; [reflexivity|].
      split; [intros x J; exact (interview_group_shape _ _ _ _ _ _ _ IG x J)|]. vm_compute. reflexivity.
    + injection E as <- <- <-. eexists _, []. split; [reflexivity|]. split; [intros x []|]. vm_compute. reflexivity.
  - change (new_msg _ _) with (@Ok val (VObj (CMsg m_Association_Set) [("groupingIdentifier", VI false 1 1); ("nodes", VNodes [(1, None)])])) in E.
    cbv iota beta in E. destruct (send _) as [b|e].
    + destruct (interview_group n 1 ask gs) as [[d' gs''] r'] eqn:IG. injection E as <- <- <-. eexists _, d'. split; [reflexivity|].
      split; [intros x J; exact (interview_group_shape _ _ _ _ _ _ _ IG x J)|]. vm_compute. reflexivity.
    + injection E as <- <- <-. eexists _, []. split; [reflexivity|]. split; [intros x []|]. vm_compute. reflexivity.
Qed.
(** a function of a byte whose value is computed for all 256 bytes *)
Definition bytes256 := map Z.of_nat (seq 0 256).
Lemma in_bytes256 i : 0 <= i < 256 -> In i bytes256.
Proof. intros B. unfold bytes256. apply in_map_iff. exists (Z.to_nat i). split; [lia|]. apply in_seq. lia. Qed.
Lemma every_byte {A} (f g : Z -> A) : map f bytes256 = map g bytes256 -> forall i, 0 <= i < 256 -> f i = g i.
Proof.
  intros E i B. apply in_bytes256 in B. revert E B. generalize bytes256 as l. induction l as [|x l IH]; [intros _ []|].
  cbn. intros [= X E] [->|J]; [exact X|exact (IH E J)].
Qed.
Lemma interview_group_reads n i ask gs mx l : dmem Z.eqb i gs = true -> (forall q, exists m, ask q = Ok m /\ lists_members m i mx l) ->
  exists q, interview_group n i ask gs = ([DGet q], dset Z.eqb i (mkG mx l) gs, Ok tt) /\ (0 <= i < 256 -> compose q = Ok [if supports n 142 then 142 else 133; 2; i]).
Proof.
  intros M A. unfold interview_group. unfold dmem in M. destruct (dget Z.eqb i gs) as [g|]; [|discriminate].
  assert (exists q, new_msg (if supports n 142 then m_MultiChannelAssociation_MultiChannelGet else m_Association_Get) [("groupingIdentifier", VInt i)] = Ok q /\
    (0 <= i < 256 -> compose q = Ok [if supports n 142 then 142 else 133; 2; i])) as (q & E & Q).
  { destruct (supports n 142).
    - exists (VObj (CMsg m_MultiChannelAssociation_MultiChannelGet) [("groupingIdentifier", VI false 1 i)]). split; [reflexivity|]. intros B.
      apply (every_byte (fun i => compose (VObj (CMsg m_MultiChannelAssociation_MultiChannelGet) [("groupingIdentifier", VI false 1 i)])) (fun i => Ok [142; 2; i])); [vm_compute; reflexivity|exact B].
    - exists (VObj (CMsg m_Association_Get) [("groupingIdentifier", VI false 1 i)]). split; [reflexivity|]. intros B.
      apply (every_byte (fun i => compose (VObj (CMsg m_Association_Get) [("groupingIdentifier", VI false 1 i)])) (fun i => Ok [133; 2; i])); [vm_compute; reflexivity|exact B]. }
  rewrite E. destruct (A q) as (m & -> & s & d & a & b & -> & I & (x & y & X) & N). cbn [getattr]. rewrite I, X, N. cbn. rewrite Z.eqb_refl. eauto.
Qed.

(** running it again after the member list was read back *)
Lemma lifeline_again n send ask gs mx l : (forall q, exists m, ask q = Ok m /\ lists_members m 1 mx l) -> controller_in l ->
  forall d gs' r, setup_lifeline n send ask gs = (d, gs', r) -> r = Ok tt ->
  forall send' ask', setup_lifeline n send' ask' gs' = ([], gs', Ok tt).
Proof.
  intros A C d gs' r E R send' ask'. subst r. revert E. unfold setup_lifeline at 1. destruct (supports n 94) eqn:P; cbn [negb].
  2: { intros [= _ <-]. unfold setup_lifeline. rewrite P. reflexivity. }
  destruct (dget Z.eqb 1 gs) as [g|] eqn:G.
  2: { intros [= _ <-]. unfold setup_lifeline. rewrite P, G. reflexivity. }
  destruct (contains (g_nodes g) 1 0) eqn:K.
  { intros [= _ <-]. unfold setup_lifeline. rewrite P, G, K. reflexivity. }
  destruct (if supports n 96 && supports n 142 then _ else _) as [c|e]; [|discriminate]. destruct (send c) as [b|e]; [|discriminate].
  destruct (interview_group_reads n 1 ask gs mx l) as (q & -> & _); [unfold dmem; rewrite G; reflexivity|exact A|]. intros [= _ <-].
  unfold setup_lifeline. rewrite P. cbn [negb]. rewrite dget_dset. cbn [Z.eqb Pos.eqb g_nodes]. rewrite (proj2 (contains_controller l) C). reflexivity.
Qed.

(** ** Attributes *)
Lemma aget_aset n m v d : aget n (aset m v d) = if String.eqb n m then Some v else aget n d.
Proof.
  unfold aget, aset. induction d as [|[k w] d IH]; cbn; [destruct (String.eqb n m); reflexivity|].
  destruct (String.eqb_spec m k) as [->|N]; cbn; [destruct (String.eqb n k); reflexivity|].
  destruct (String.eqb_spec n k) as [->|M]; [destruct (String.eqb_spec k m); [congruence|reflexivity]|exact IH].
Qed.
Lemma land1 z : Z.land z 1 = z mod 2.
Proof. change 1 with (Z.ones 1). rewrite Z.land_ones by lia. reflexivity. Qed.
Definition kept (t : aty) (v w : val) : Prop :=
  (forall z, number v = Some z -> match t with TInt _ _ | TUb _ | TBits _ | TRes _ | TPyInt => number w = Some z | TFlag => w = v \/ number w = Some (z mod 2) | _ => True end) /\
  (forall s, v = VStr s -> (t = TStr \/ t = TStrT) -> w = v).
Lemma to_int_number v z x : to_int v = Ok x -> number v = Some z -> x = z.
Proof. intros A B. destruct v; cbn in *; congruence. Qed.
Lemma construct_spec t v w : construct t v = Ok w -> has_type t w /\ kept t v w.
Proof.
  unfold kept. destruct t; cbn [construct]; intros E.
  all: try discriminate E.
  all: try (destruct (to_int v) as [x|] eqn:T; [|discriminate E]; injection E as <-; cbn [has_type number];
    (split; [eauto 8|]); (split; [intros z Z; rewrite (to_int_number v z x T Z), ?land1; auto|intros s _ [|]; congruence])).
  - destruct (to_pybytes v) as [x|]; [|discriminate E]. injection E as <-. cbn. split; [eauto|]. split; [auto|]. intros s _ [|]; congruence.
  - destruct v; try discriminate E; injection E as <-; cbn; (split; [eauto|]); (split; [auto|]); congruence.
  - destruct v; try discriminate E; injection E as <-; cbn; (split; [eauto|]); (split; [auto|]); congruence.
  - destruct (iter_val v) as [x|]; [|discriminate E]. injection E as <-. cbn. split; [eauto|]. split; [auto|]. intros s _ [|]; congruence.
  - assert (exists m p a b, w = VFloatT m p a b) as X.
    { destruct v; cbn in E; try discriminate E; injection E as <-; eauto. }
    split; [exact X|]. split; [auto|]. intros s _ [|]; congruence.
  - assert (exists z, w = VIPv6 z) as X.
    { destruct v; cbn -[Z.pow] in E; try discriminate E; try (match type of E with (if ?c then _ else _) = _ => destruct c end; try discriminate E); injection E as <-; eauto. }
    split; [exact X|]. split; [auto|]. intros s _ [|]; congruence.
  - destruct (to_set v) as [x|]; [|discriminate E]. injection E as <-. cbn. split; [eauto|]. split; [auto|]. intros s _ [|]; congruence.
  - destruct (to_set v) as [x|]; [|discriminate E]. injection E as <-. cbn. split; [eauto|]. split; [auto|]. intros s _ [|]; congruence.
Qed.
Lemma setstate_spec t v w : has_setstate t = true -> setstate t v = Ok w -> has_type t w /\ kept t v w.
Proof.
  intros H E. assert (kept t v w) as K by (destruct t; try discriminate H; (split; [auto|intros s _ [|]; congruence])). split; [|exact K]. clear K.
  destruct t; try discriminate H; cbn [setstate] in E; cbn [has_type].
  - destruct v; cbn in E; try discriminate E; try (match type of E with (if ?c then _ else _) = _ => destruct c end; try discriminate E; try (injection E as <-; eauto)).
    destruct (map_res py_int _); [|discriminate E]. injection E as <-. eauto.
  - unfold nodes_setstate in E. destruct (iter_val v) as [x|]; [|discriminate E]. cbn in E. destruct (map_res node_of_val x); [|discriminate E]. injection E as <-. eauto.
  - destruct (items v) as [x|]; [|discriminate E]. cbn [bind] in E. destruct (vardict_setstate _ _ _ _); [|discriminate E]. injection E as <-. eauto.
  - destruct (items v) as [x|]; [|discriminate E]. cbn [bind] in E. destruct (vardict_setstate _ _ _ _); [|discriminate E]. injection E as <-. eauto.
  - injection E as <-. eauto.
Qed.
Lemma isinst_type v t : isinst v t = true -> has_type t v.
Proof.
  destruct t, v; cbn; intros I; try discriminate I; eauto 8.
  - apply andb_true_iff in I. destruct I as [B S]. apply Bool.eqb_prop in B. apply Nat.eqb_eq in S. subst. eauto.
  - apply Z.eqb_eq in I. subst. eauto.
  - destruct c; try discriminate; eauto 8.
Qed.
Lemma type_isinst v t : has_type t v -> (forall n, t <> TBits n) -> (forall n, t <> TRes n) -> t <> TOptData -> isinst v t = true.
Proof.
  intros H N1 N2 N3. destruct t; cbn [has_type] in H; try (elim N3; reflexivity); try (elim (N1 n); reflexivity); try (elim (N2 n); reflexivity).
  all: try (destruct H as (x & H); subst v; cbn [isinst]; rewrite ?Bool.eqb_reflx, ?Nat.eqb_refl, ?Z.eqb_refl; reflexivity).
  - destruct H as [(x & ->)|(x & ->)]; reflexivity.
  - destruct H as [(x & ->)|[(x & ->)|[(a & b & x & ->)|[(a & x & ->)|(x & ->)]]]]; reflexivity.
  - destruct H as (m & p & sz & sc & ->). reflexivity.
  - destruct H as [(s & d & ->)|[(d & ->)|(h & d & ->)]]; reflexivity.
Qed.
Lemma coerce_converted t v w : setattr_coerce t v = Ok w -> converted t v w.
Proof.
  unfold setattr_coerce, converted. destruct (isinst v t) eqn:I.
  - intros [= <-]. split; [apply isinst_type; exact I|]. split; [|auto]. intros z Z. destruct t; auto.
  - intros E. assert (has_type t w /\ kept t v w) as (A & B & C).
    { destruct (has_setstate t) eqn:H; [exact (setstate_spec t v w H E)|]. destruct v; try exact (construct_spec t _ w E).
      assert (kept t (VTuple l) w) as K by (split; [discriminate|discriminate]). split; [|exact K]. clear - E.
      destruct l as [|x l]; [destruct t; discriminate E|]. destruct l as [|y l].
      - cbn in E. assert (construct t x = Ok w) as E' by (destruct t, x; exact E). apply construct_spec in E'. apply E'.
      - destruct t; try (destruct x; discriminate E). destruct x; try discriminate E. destruct y; try discriminate E. destruct l as [|z' l]; [discriminate E|].
        destruct z'; try discriminate E. destruct l; [|discriminate E]. injection E as <-. cbn. eauto 8. }
    split; [exact A|]. split; [exact B|]. split; [exact C|]. intros T N1 N2. destruct t; try (rewrite type_isinst in I by (auto; discriminate); discriminate I).
    exfalso. destruct v; try discriminate E. destruct l as [|? [|? ?]]; cbn in E; try discriminate E; destruct v; discriminate E.
Qed.
Lemma exact_eq t u w : exact t = true -> has_type t u -> has_type t w -> py_eq u w = Ok true -> u = w.
Proof.
  intros X U W E.
  assert (forall l l', list_eqb Z.eqb l l' = true -> l = l') as LE by (induction l as [|? ? IH]; intros [|? ?]; cbn; try discriminate; [reflexivity|]; intros H; apply andb_true_iff in H; destruct H; f_equal; [lia|auto]).
  destruct t; try discriminate X; cbn in U, W; destruct U as (a & ->), W as (b & ->); cbn in E; injection E as E.
  - f_equal. lia.
  - f_equal. lia.
  - f_equal. apply LE. exact E.
  - f_equal. apply LE. exact E.
  - f_equal. apply LE. exact E.
  - f_equal. lia.
  - f_equal. revert b E. induction a as [|[n e] a IH]; intros [|[n' e'] b]; cbn; try discriminate; [reflexivity|]. intros H. apply andb_true_iff in H. destruct H as [H1 H2].
    apply andb_true_iff in H1. destruct H1 as [H0 H1]. f_equal; [|auto]. f_equal; [lia|]. destruct e, e'; try discriminate; [f_equal; lia|reflexivity].
Qed.
Lemma assign attrs name v d d' ev t : declared_as attrs name t -> setattr attrs name v d = Ok (d', ev) ->
  exists w, converted t v w /\ (forall n, n <> name -> aget n d' = aget n d) /\
    ((ev = Some w /\ aget name d' = Some w /\ (forall o, aget name d = Some o -> py_eq o w = Ok false)) \/
     (ev = None /\ d' = d /\ exists o, aget name d = Some o /\ py_eq o w = Ok true)).
Proof.
  unfold setattr, declared_as. intros (a & -> & <-) E. destruct (setattr_coerce (a_ty a) v) as [w|] eqn:C; [|discriminate E]. cbn [bind] in E. exists w. split; [apply coerce_converted; exact C|].
  destruct (aget name d) as [o|] eqn:O.
  - destruct (py_eq o w) as [[|]|] eqn:P; [| |discriminate E]; cbn in E; injection E as <- <-.
    + split; [auto|]. right. split; [reflexivity|]. split; [reflexivity|]. eauto.
    + split; [intros n N; rewrite aget_aset; destruct (String.eqb_spec n name); [congruence|reflexivity]|]. left. rewrite aget_aset, String.eqb_refl. split; [reflexivity|]. split; [reflexivity|]. congruence.
  - injection E as <- <-. split; [intros n N; rewrite aget_aset; destruct (String.eqb_spec n name); [congruence|reflexivity]|]. left. rewrite aget_aset, String.eqb_refl. split; [reflexivity|]. split; [reflexivity|]. congruence.
Qed.

(** ** Configuration *)
Definition after_reports (ms : list val) : parameters := fold_left (fun ps m => fst (cfg_report m ps)) ms [].
Lemma cfg_report_ok m k v sz ps : reports_parameter m k v sz -> cfg_report m ps = (dset Z.eqb k (v, sz) ps, Ok true).
Proof.
  intros (d & -> & (a & b & K) & V & (n & S)). unfold cfg_report. cbn [getattr]. rewrite K, V, S. cbn [to_int]. destruct (dget Z.eqb k ps) as [[? ?]|]; reflexivity.
Qed.
Lemma cfg_latest ms : (forall m, In m ms -> exists k v sz, reports_parameter m k v sz) -> forall k ask,
  match cfg_get k true ask (after_reports ms) with
  | ([], r) => exists a m b v sz, ms = a ++ m :: b /\ reports_parameter m k v sz /\ (forall m' k' v' sz', In m' b -> reports_parameter m' k' v' sz' -> k' <> k) /\ r = Ok (VInt v)
  | (q :: qs, r) => qs = [] /\ (0 <= k < 256 -> compose q = Ok [112; 5; k]) /\ (r = do m <- ask q; Ok (getattr m "value")) /\ forall m k' v sz, In m ms -> reports_parameter m k' v sz -> k' <> k
  end.
Proof.
  intros A k ask.
  assert (match dget Z.eqb k (after_reports ms) with
          | Some (v, sz) => exists a m b, ms = a ++ m :: b /\ reports_parameter m k v sz /\ forall m' k' v' sz', In m' b -> reports_parameter m' k' v' sz' -> k' <> k
          | None => forall m k' v sz, In m ms -> reports_parameter m k' v sz -> k' <> k end) as H.
  { unfold after_reports. induction ms as [|m ms IH] using rev_ind; [cbn; tauto|]. rewrite fold_left_app. cbn [fold_left].
    specialize (IH (fun m' J => A m' (in_or_app _ _ _ (or_introl J)))). destruct (A m) as (k0 & v0 & sz0 & R); [apply in_or_app; right; left; reflexivity|].
    rewrite (cfg_report_ok m k0 v0 sz0 _ R). cbn [fst]. rewrite dget_dset.
    assert (forall k' v' sz', reports_parameter m k' v' sz' -> k' = k0) as U.
    { intros k' v' sz' (d & -> & (a & b & K) & _). destruct R as (d' & [= <-] & (a' & b' & K') & _). congruence. }
    destruct (Z.eqb_spec k k0) as [->|N].
    - exists ms, m, []. split; [reflexivity|]. split; [exact R|]. intros ? ? ? ? [].
    - destruct (dget Z.eqb k _) as [[v sz]|].
      + destruct IH as (a & m1 & b & -> & R1 & L). exists a, m1, (b ++ [m]). split; [rewrite <- app_assoc; reflexivity|]. split; [exact R1|].
        intros m' k' v' sz' J R'. apply in_app_or in J. destruct J as [J|[<-|[]]]; [exact (L m' k' v' sz' J R')|]. rewrite (U _ _ _ R'). congruence.
      + intros m' k' v' sz' J R'. apply in_app_or in J. destruct J as [J|[<-|[]]]; [exact (IH m' k' v' sz' J R')|]. rewrite (U _ _ _ R'). congruence. }
  unfold cfg_get. destruct (dget Z.eqb k (after_reports ms)) as [[v sz]|].
  - destruct H as (a & m & b & E & R & L). exists a, m, b, v, sz. auto.
  - change (new_msg m_Configuration_Get [("parameterNumber", VInt k)]) with (@Ok val (VObj (CMsg m_Configuration_Get) [("parameterNumber", VI false 1 k)])).
    split; [reflexivity|]. split; [|split; [reflexivity|exact H]]. intros B.
    apply (every_byte (fun i => compose (VObj (CMsg m_Configuration_Get) [("parameterNumber", VI false 1 i)])) (fun i => Ok [112; 5; i])); [vm_compute; reflexivity|exact B].
Qed.

(** ** Sensor interview *)
Lemma sensor_interview_ok version ms ts (f : Z -> Z) scales types : 5 <= version -> getattr ms "bitMask" = VSensors ts -> (forall t, In t ts -> 0 <= t < 256) ->
  (forall t, In t ts -> exists m, scales t = Ok m /\ to_int (getattr m "scaleBitMask") = Ok (f t)) ->
  exists qs types', sensor_interview version (Ok ms) scales types = (qs, types', Ok None) /\
    map compose qs = Ok [49; 1] :: map (fun t => Ok [49; 3; t]) ts /\ forall k, dget Z.eqb k types' = if existsb (Z.eqb k) ts then Some (f k) else dget Z.eqb k types.
Proof.
  intros V M B H. unfold sensor_interview. replace (version <? 5) with false by lia.
  change (new_msg m_SensorMultilevel_SupportedGetSensor []) with (@Ok val (VObj (CMsg m_SensorMultilevel_SupportedGetSensor) [])). rewrite M.
  destruct (sensor_scales_ok f scales ts H types) as (qs & ty & -> & Q & G). eexists _, ty. split; [reflexivity|]. split; [|exact G].
  cbn [map]. rewrite Q. change (compose (VObj (CMsg m_SensorMultilevel_SupportedGetSensor) [])) with (@Ok (list Z) [49; 1]). f_equal. apply map_ext_in. intros t J.
  apply (every_byte (fun t => compose (VObj (CMsg m_SensorMultilevel_SupportedGetScale) [("sensorType", VI false 1 t)])) (fun t => Ok [49; 3; t])); [vm_compute; reflexivity|exact (B t J)].
Qed.

(** ** Association interview *)
Definition request_bytes (d : dialogue) : res (list Z) := match d with DSet c | DGet c => compose c end.
Lemma group_gets n i ask gs : 0 <= i < 256 -> dmem Z.eqb i gs = true -> exists q gs' r, interview_group n i ask gs = ([DGet q], gs', r) /\ compose q = Ok [if supports n 142 then 142 else 133; 2; i] /\
  (forall j, dmem Z.eqb j gs' = dmem Z.eqb j gs) /\ (forall j, j <> i -> dget Z.eqb j gs' = dget Z.eqb j gs) /\
  (forall m mx l, ask q = Ok m -> lists_members m i mx l -> r = Ok tt /\ dget Z.eqb i gs' = Some (mkG mx l)) /\ (ask q = Err ETimeout -> r = Err ETimeout /\ gs' = gs) /\ map fst gs' = map fst gs.
Proof.
  intros B M. unfold interview_group. unfold dmem in M. destruct (dget Z.eqb i gs) as [g|] eqn:G; [|discriminate].
  assert (exists q, new_msg (if supports n 142 then m_MultiChannelAssociation_MultiChannelGet else m_Association_Get) [("groupingIdentifier", VInt i)] = Ok q /\
    compose q = Ok [if supports n 142 then 142 else 133; 2; i]) as (q & -> & Q).
  { destruct (interview_group_reads n i (fun _ => Ok (VObj (CMsg m_Association_Report) [("groupingIdentifier", VI false 1 i); ("maxNodesSupported", VI false 1 0); ("nodes", VNodes [])])) gs 0 []) as (q & E & Q).
    - unfold dmem. rewrite G. reflexivity.
    - intros q. eexists. split; [reflexivity|]. do 4 eexists. split; [reflexivity|]. cbn. split; [reflexivity|]. split; [eauto|reflexivity].
    - exists q. split; [|exact (Q B)]. unfold interview_group in E. rewrite G in E. destruct (new_msg _ _) as [q'|e]; [|discriminate E]. cbn in E. rewrite Z.eqb_refl in E. injection E as ->. reflexivity. }
  assert (forall x, forall j, dmem Z.eqb j (dset Z.eqb i x gs) = dmem Z.eqb j gs) as DM.
  { intros x j. unfold dmem. rewrite dget_dset. destruct (Z.eqb_spec j i) as [->|]; [rewrite G; reflexivity|reflexivity]. }
  assert (forall x, forall j, j <> i -> dget Z.eqb j (dset Z.eqb i x gs) = dget Z.eqb j gs) as DG.
  { intros x j N. rewrite dget_dset. destruct (Z.eqb_spec j i); [congruence|reflexivity]. }
  assert (forall x, map fst (dset Z.eqb i x gs) = map fst gs) as DK.
  { intros x. clear - G. induction gs as [|[k w] gs IH]; [discriminate G|]. cbn in *. destruct (i =? k) eqn:E; cbn; [f_equal; lia|]. f_equal. apply IH. exact G. }
  exists q. destruct (ask q) as [m|e] eqn:A.
  2: { do 2 eexists. split; [reflexivity|]. split; [exact Q|]. split; [auto|]. split; [auto|]. split; [discriminate|]. split; [intros [= ->]; auto|reflexivity]. }
  assert (forall m' mx l, @Ok val m = Ok m' -> lists_members m' i mx l -> to_int (getattr m "groupingIdentifier") = Ok i /\ to_int (getattr m "maxNodesSupported") = Ok mx /\ getattr m "nodes" = VNodes l) as LM.
  { intros m' mx l [= <-] (s & d & a & b & -> & I & (x & y & X) & N). cbn [getattr]. rewrite I, X, N. auto. }
  destruct (to_int (getattr m "groupingIdentifier")) as [j|e].
  2: { do 2 eexists. split; [reflexivity|]. split; [exact Q|]. split; [auto|]. split; [auto|]. split; [intros m' mx l E L; destruct (LM m' mx l E L); discriminate|]. split; [discriminate|reflexivity]. }
  destruct (Z.eqb_spec j i) as [->|N].
  2: { do 2 eexists. split; [reflexivity|]. split; [exact Q|]. split; [auto|]. split; [auto|]. split; [intros m' mx l E L; destruct (LM m' mx l E L); congruence|]. split; [discriminate|reflexivity]. }
  destruct (to_int (getattr m "maxNodesSupported")) as [mx|e].
  2: { do 2 eexists. split; [reflexivity|]. split; [exact Q|]. split; [auto|]. split; [auto|]. split; [intros m' mx l E L; destruct (LM m' mx l E L) as (_ & ? & _); discriminate|]. split; [discriminate|reflexivity]. }
  destruct (setattr_coerce TNodes (getattr m "nodes")) as [v|e] eqn:C.
  2: { do 2 eexists. split; [reflexivity|]. split; [exact Q|]. split; [apply DM|]. split; [apply DG|]. split; [|split; [discriminate|apply DK]].
       intros m' mx' l E L. destruct (LM m' mx' l E L) as (_ & _ & F). rewrite F in C. discriminate. }
  assert (exists l, v = VNodes l) as (l & ->) by (apply coerce_converted in C; apply C).
  do 2 eexists. split; [reflexivity|]. split; [exact Q|]. split; [apply DM|]. split; [apply DG|]. split; [|split; [discriminate|apply DK]].
  intros m' mx' l' E L. destruct (LM m' mx' l' E L) as (_ & MX & F). rewrite F in C. injection C as <-. injection MX as <-. rewrite dget_dset, Z.eqb_refl. auto.
Qed.
Definition answered (n : classes) (answers : Z -> option (Z * list (Z * option Z))) (q : val) (a : res val) : Prop :=
  forall i, compose q = Ok [if supports n 142 then 142 else 133; 2; i] ->
    match answers i with Some (mx, l) => exists m, a = Ok m /\ lists_members m i mx l | None => a = Err ETimeout end.
Lemma visit_all n answers ids ask : (forall i, In i ids -> 0 <= i < 256) -> (forall k q, answered n answers q (ask k q)) ->
  forall k gs, (forall i, In i ids -> dmem Z.eqb i gs = true) -> NoDup ids ->
  exists qs gs' k', visit_groups n ids ask k gs = (qs, gs', Ok tt, k') /\ map request_bytes qs = map (fun i => Ok [if supports n 142 then 142 else 133; 2; i]) ids /\ map fst gs' = map fst gs /\ (forall x, In x qs -> exists q, x = DGet q) /\ forall g, dget Z.eqb g gs' = if existsb (Z.eqb g) ids then match answers g with Some (mx, l) => Some (mkG mx l) | None => dget Z.eqb g gs end else dget Z.eqb g gs.
Proof.
  intros B A. induction ids as [|i ids IH]; intros k gs M ND.
  { exists [], gs, k. cbn. repeat split; auto. intros x []. }
  inversion_clear ND as [|? ? NI ND']. cbn [visit_groups].
  destruct (group_gets n i (ask k) gs (B i (or_introl eq_refl)) (M i (or_introl eq_refl))) as (q & gs1 & r & -> & Q & DM & DG & OKc & TO & K1).
  specialize (A k q) as AQ. specialize (AQ i Q).
  assert (exists qs gs' k', visit_groups n ids ask (S k) gs1 = (qs, gs', Ok tt, k') /\ map request_bytes qs = map (fun i => Ok [if supports n 142 then 142 else 133; 2; i]) ids /\ map fst gs' = map fst gs1 /\ (forall x, In x qs -> exists q, x = DGet q) /\ forall g, dget Z.eqb g gs' = if existsb (Z.eqb g) ids then match answers g with Some (mx, l) => Some (mkG mx l) | None => dget Z.eqb g gs1 end else dget Z.eqb g gs1) as (qs & gs' & k' & E & QS & K2 & DGs & G).
  { apply IH; [intros j J; apply B; right; exact J|intros j J; rewrite DM; apply M; right; exact J|exact ND']. }
  exists (DGet q :: qs), gs', k'. rewrite E.
  assert (r = Ok tt \/ r = Err ETimeout) as [-> | ->].
  { destruct (answers i) as [[mx l]|]; [destruct AQ as (m & AM & L); left; apply (OKc m mx l AM L)|right; apply TO; exact AQ]. }
  all: split; [reflexivity|]; split; [cbn [map request_bytes]; rewrite Q, QS; reflexivity|]; split; [congruence|]; split; [intros x [<-|J]; eauto|].
  all: intros g; rewrite G; cbn [existsb]; destruct (Z.eqb_spec g i) as [->|N]; cbn [orb].
  2, 4: rewrite !DG by exact N; reflexivity.
  all: assert (existsb (Z.eqb i) ids = false) as -> by (destruct (existsb (Z.eqb i) ids) eqn:X; [|reflexivity]; apply existsb_exists in X; destruct X as (z & J & Z); assert (z = i) by lia; subst z; elim (NI J)).
  all: destruct (answers i) as [[mx l]|]; [destruct AQ as (m & AM & L); apply (OKc m mx l AM L)|destruct (TO AQ) as [_ ->]; reflexivity].
Qed.
Lemma num_groups n : map fst (set_num_groups (Z.of_nat n) []) = map Z.of_nat (seq 1 n) /\ forall g, dget Z.eqb g (set_num_groups (Z.of_nat n) []) = if (1 <=? g) && (g <=? Z.of_nat n) then Some (mkG 0 []) else None.
Proof.
  unfold set_num_groups. rewrite Nat2Z.id. induction n as [|n [IH1 IH2]].
  { split; [reflexivity|]. intros g. cbn [seq fold_left dget]. destruct ((1 <=? g) && (g <=? Z.of_nat 0)) eqn:E; [lia|reflexivity]. }
  rewrite seq_S, fold_left_app. cbn [fold_left plus Nat.add]. set (gs := fold_left _ _ _) in *. unfold dmem. rewrite IH2.
  replace ((1 <=? Z.of_nat (S n)) && (Z.of_nat (S n) <=? Z.of_nat n)) with false by lia. split.
  - rewrite map_app, <- IH1. cbn [map]. assert (dget Z.eqb (Z.of_nat (S n)) gs = None) as N by (rewrite IH2; replace ((1 <=? Z.of_nat (S n)) && (Z.of_nat (S n) <=? Z.of_nat n)) with false by lia; reflexivity).
    clear - N. induction gs as [|[k v] gs IH]; [reflexivity|]. cbn [dset dget] in *. destruct (Z.of_nat (S n) =? k) eqn:E; [discriminate N|]. cbn [map app fst]. f_equal. apply IH. exact N.
  - intros g. rewrite dget_dset, IH2. destruct (g =? Z.of_nat (S n)) eqn:E; [replace ((1 <=? g) && (g <=? Z.of_nat (S n))) with true by lia; reflexivity|].
    replace ((1 <=? g) && (g <=? Z.of_nat (S n))) with ((1 <=? g) && (g <=? Z.of_nat n)) by lia. reflexivity.
Qed.
Lemma association_all n send ask answers num m0 : (num < 256)%nat -> (forall q, compose q = Ok [133; 5] -> ask O q = Ok m0) -> to_int (getattr m0 "supportedGroupings") = Ok (Z.of_nat num) ->
  (forall k q, k <> O -> answered n answers q (ask k q)) ->
  exists q0 d dl gs gs' r k, association_interview n send ask [] = (DGet q0 :: d ++ dl, gs', r) /\ setup_lifeline n send (ask k) gs = (dl, gs', r) /\ compose q0 = Ok [133; 5] /\
    map request_bytes d = map (fun i => Ok [if supports n 142 then 142 else 133; 2; Z.of_nat i]) (seq 1 num) /\ (forall x, In x d -> exists q, x = DGet q) /\
    forall g, dget Z.eqb g gs = if (1 <=? g) && (g <=? Z.of_nat num) then Some (match answers g with Some (mx, l) => mkG mx l | None => mkG 0 [] end) else None.
Proof.
  intros NB A0 M0 A. unfold association_interview.
  change (new_msg m_Association_GroupingsGet []) with (@Ok val (VObj (CMsg m_Association_GroupingsGet) [])).
  cbv iota beta. rewrite A0 by reflexivity. cbn [bind]. rewrite M0. destruct (num_groups num) as [K G].
  set (ask' := fun k => match k with O => fun q => ask 1%nat q | S _ => ask k end).
  assert (forall ids k gs, k <> O -> visit_groups n ids ask k gs = visit_groups n ids ask' k gs) as VE.
  { induction ids as [|i ids IH]; intros k gs NZ; [reflexivity|]. cbn [visit_groups]. replace (ask' k) with (ask k) by (destruct k; [congruence|reflexivity]).
    destruct (interview_group n i (ask k) gs) as [[d g] r]. rewrite IH by discriminate. reflexivity. }
  rewrite VE by discriminate. rewrite K.
  destruct (visit_all n answers (map Z.of_nat (seq 1 num)) ask') with (k := 1%nat) (gs := set_num_groups (Z.of_nat num) []) as (qs & gs & k & -> & Q & KK & GG & T).
  - intros i J. apply in_map_iff in J. destruct J as (j & <- & J). apply in_seq in J. lia.
  - intros k q. destruct k as [|k]; cbn [ask']; apply A; discriminate.
  - intros i J. apply in_map_iff in J. destruct J as (j & <- & J). apply in_seq in J. unfold dmem. rewrite G. replace ((1 <=? Z.of_nat j) && (Z.of_nat j <=? Z.of_nat num)) with true by lia. reflexivity.
  - apply FinFun.Injective_map_NoDup; [intros x y; lia|apply seq_NoDup].
  - destruct (setup_lifeline n send (ask k) gs) as [[dl gs'] r] eqn:SL. exists (VObj (CMsg m_Association_GroupingsGet) []), qs, dl, gs, gs', r, k. split; [reflexivity|].
    split; [exact SL|]. split; [reflexivity|]. split; [rewrite Q, map_map; reflexivity|]. split; [exact GG|]. intros g. rewrite T, G.
    assert (existsb (Z.eqb g) (map Z.of_nat (seq 1 num)) = (1 <=? g) && (g <=? Z.of_nat num)) as ->.
    { apply Bool.eq_true_iff_eq. rewrite existsb_exists. split.
      - intros (x & J & E). apply in_map_iff in J. destruct J as (j & <- & J). apply in_seq in J. lia.
      - intros H. exists g. split; [|apply Z.eqb_refl]. apply in_map_iff. exists (Z.to_nat g). split; [lia|]. apply in_seq. lia. }
    destruct ((1 <=? g) && (g <=? Z.of_nat num)); [destruct (answers g) as [[mx l]|]; reflexivity|reflexivity].
Qed.
Lemma association_all_asks n send ask answers num m0 : (num < 256)%nat -> (forall q, compose q = Ok [133; 5] -> ask O q = Ok m0) -> to_int (getattr m0 "supportedGroupings") = Ok (Z.of_nat num) ->
  answers_groups n answers ask ->
  exists d0 d dl gs gs' r k, association_interview n send ask [] = (d0 :: d ++ dl, gs', r) /\ setup_lifeline n send (ask k) gs = (dl, gs', r) /\ asks d0 [133; 5] /\
    Forall2 asks d (map (fun i => [if supports n 142 then 142 else 133; 2; Z.of_nat i]) (seq 1 num)) /\
    forall g, dget Z.eqb g gs = if (1 <=? g) && (g <=? Z.of_nat num) then Some (match answers g with Some (mx, l) => mkG mx l | None => mkG 0 [] end) else None.
Proof.
  intros NB A0 M0 A. destruct (association_all n send ask answers num m0 NB A0 M0) as (q0 & d & dl & gs & gs' & r & k & E & S & Q & D & G & T).
  - intros k q NZ i C. exact (A k q i NZ C).
  - exists (DGet q0), d, dl, gs, gs', r, k. split; [exact E|]. split; [exact S|]. split; [exists q0; auto|]. split; [|exact T].
    clear - D G. revert D. generalize (seq 1 num) as l. induction d as [|x d IH]; intros [|i l]; cbn [map]; try discriminate; [constructor|]. intros [= X D].
    constructor; [|apply IH; [intros y J; apply G; right; exact J|exact D]]. destruct (G x) as (q & ->); [left; reflexivity|]. exists q. auto.
Qed.

Lemma cfg_uncached ps k ask : 0 <= k < 256 -> exists q, compose q = Ok [112; 5; k] /\ cfg_get k false ask ps = ([q], do m <- ask q; Ok (getattr m "value")).
Proof.
  intros B. exists (VObj (CMsg m_Configuration_Get) [("parameterNumber", VI false 1 k)]). split; [|reflexivity].
  apply (every_byte (fun k => compose (VObj (CMsg m_Configuration_Get) [("parameterNumber", VI false 1 k)])) (fun k => Ok [112; 5; k])); [vm_compute; reflexivity|exact B].
Qed.
