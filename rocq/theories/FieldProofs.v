(** C11-C18, C21, C22: individual field formats. *)
From Coq Require Import String ZArith List Bool Lia ZifyBool ZifyNat.
From Verif Require Import Py BitStream Schema Registry Codec Text SpecBits BitLemmas ReaderLemmas SpecWire SpecDecode SpecRound SpecTotal
  EncodeProofs DecodeLemmas DecodeProofs RoundTrip CodecProofs ParseRel TotalProofs ByteReader SpecFields HeaderProofs.
Import ListNotations.
Open Scope list_scope.
Open Scope string_scope.
Open Scope list_scope.
Open Scope Z_scope.
Local Ltac Zify.zify_post_hook ::= Z.div_mod_to_equations.

(** ** frames that end with one special attribute *)
Definition field_parse (f : nat) (a : attr) (d : adict) (r : reader) : res (val * reader) :=
  match a_parse a with Some h => hk2 (deserialize f) h d r | None => ds2 (deserialize f) (a_ty a) r end.

Section Frame.
  Variables (s : schema) (pre : list attr) (a : attr) (p1 : list Z).
  Hypothesis Hs : In s registry.
  Hypothesis EA : s_attrs s = pre ++ [a].
  Hypothesis FX : fixed pre = true.
  Hypothesis DN : declared (a_name a) pre = None.
  Hypothesis B1 : bytes_ok p1.
  Hypothesis L1 : (8 * length p1)%nat = bitsum pre.

  Lemma frame_last p2 (P : val -> Prop) : bytes_ok p2 -> p2 <> [] ->
    (forall d q f, header_reads (s_attrs s) pre p1 d -> exists v r v', field_parse f a d (at_ q p2) = Ok (v, r) /\
      setattr_coerce (a_ty a) v = Ok v' /\ P v') ->
    exists d v, decode (s_cls s :: s_cmd s :: p1 ++ p2) = Ok (VObj (CMsg s) d) /\ header_reads (s_attrs s) pre p1 d /\
      aget (a_name a) d = Some v /\ P v.
  Proof.
    intros B2 NE H. destruct (frame_prefix s pre [a] p1 p2 Hs EA FX B1 B2 L1) as (d & q & cs & f & CU & ST & DO & BQ & LQ & EF & E).
    pose proof (stored_header _ _ _ _ _ CU ST) as HR. destruct (H d q f HR) as (v & r & v' & EP & CO & PV).
    rewrite E. erewrite parse_step; [| |exact EP|].
    2:{ rewrite at_left. destruct p2; [contradiction|apply zpos]. }
    2:{ apply (setattr_fresh _ _ (a_ty a) _ v'); [|exact CO|].
        - rewrite EA, declared_app, DN. cbn [declared]. rewrite String.eqb_refl. reflexivity.
        - specialize (DO (a_name a)). rewrite DN in DO. exact DO. }
    cbn [parse_attrs bind]. exists (aset (a_name a) v' d), v'. split; [reflexivity|]. split.
    - apply header_aset; [exact HR|]. intros c cs' _. rewrite last_piece_declared by exact DN. discriminate.
    - split; [apply aget_aset_same|exact PV].
  Qed.
  Lemma frame_last_err p2 e : bytes_ok p2 -> p2 <> [] ->
    (forall d q f, header_reads (s_attrs s) pre p1 d -> field_parse f a d (at_ q p2) = Err e) ->
    decode (s_cls s :: s_cmd s :: p1 ++ p2) = Err e.
  Proof.
    intros B2 NE H. destruct (frame_prefix s pre [a] p1 p2 Hs EA FX B1 B2 L1) as (d & q & cs & f & CU & ST & DO & BQ & LQ & EF & E).
    rewrite E. cbn [parse_attrs]. rewrite at_left. destruct (Z.eqb_spec (zlen p2) 0) as [X|_].
    { destruct p2; [contradiction|elim (zpos _ _ X)]. }
    specialize (H d q f (stored_header _ _ _ _ _ CU ST)). unfold field_parse in H. rewrite H. reflexivity.
  Qed.
  Lemma frame_last_none : exists d, decode (s_cls s :: s_cmd s :: p1) = Ok (VObj (CMsg s) d) /\ header_reads (s_attrs s) pre p1 d /\
    aget (a_name a) d = None.
  Proof.
    destruct (frame_prefix s pre [a] p1 [] Hs EA FX B1 ltac:(constructor) L1) as (d & q & cs & f & CU & ST & DO & BQ & LQ & EF & E).
    rewrite app_nil_r in E. rewrite parse_stop in E by (rewrite at_left; reflexivity). cbn [bind] in E.
    exists d. split; [exact E|]. split; [exact (stored_header _ _ _ _ _ CU ST)|]. specialize (DO (a_name a)). rewrite DN in DO. exact DO.
  Qed.
End Frame.

(** ** node list mask *)
Lemma set_add_in x z l : In x (set_add z l) <-> x = z \/ In x l.
Proof.
  unfold set_add. destruct (existsb (Z.eqb z) l) eqn:E.
  - apply existsb_exists in E as (y & I & Q). apply Z.eqb_eq in Q. subst. intuition congruence.
  - rewrite in_app_iff. cbn. intuition.
Qed.
Lemma set_add_nodup z l : NoDup l -> NoDup (set_add z l).
Proof.
  intros N. unfold set_add. destruct (existsb (Z.eqb z) l) eqn:E; [exact N|].
  rewrite <- (rev_involutive (l ++ [z])). apply NoDup_rev. rewrite rev_app_distr. cbn. constructor; [|apply NoDup_rev; exact N].
  rewrite <- in_rev. intros I. assert (existsb (Z.eqb z) l = true); [|congruence]. apply existsb_exists. exists z. rewrite Z.eqb_refl. auto.
Qed.
Lemma fold_set l : forall acc, (forall x, In x (fold_left (fun a z => set_add z a) l acc) <-> In x l \/ In x acc) /\
  (NoDup acc -> NoDup (fold_left (fun a z => set_add z a) l acc)).
Proof.
  induction l as [|y l IH]; intros acc; cbn [fold_left]; [split; [cbn; tauto|auto]|].
  destruct (IH (set_add y acc)) as [I1 I2]. split.
  - intros x. rewrite I1, set_add_in. cbn. intuition.
  - intros N. apply I2, set_add_nodup, N.
Qed.
Lemma land_bit b j : 0 <= j -> negb (Z.land b (Z.shiftl 1 j) =? 0) = Z.testbit b j.
Proof.
  intros J. rewrite Z.shiftl_1_l. destruct (Z.testbit b j) eqn:T.
  - apply negb_true_iff, Z.eqb_neq. intros E. assert (Z.testbit (Z.land b (2 ^ j)) j = true).
    { rewrite Z.land_spec, T, Z.pow2_bits_true by lia. reflexivity. }
    rewrite E, Z.bits_0 in H. discriminate.
  - apply negb_false_iff, Z.eqb_eq. apply Z.bits_inj'. intros k K. rewrite Z.land_spec, Z.bits_0.
    destruct (Z.eq_dec k j) as [->|N]; [rewrite T; reflexivity|]. rewrite Z.pow2_bits_false by lia. apply andb_false_r.
Qed.
Lemma bit_ids_in base b x : In x (bit_ids base b) <-> base + 1 <= x <= base + 8 /\ Z.testbit b (x - base - 1) = true.
Proof.
  unfold bit_ids. rewrite in_flat_map. split.
  - intros (j & I & X). assert (J : 0 <= j < 8) by (cbn in I; lia). rewrite land_bit in X by lia.
    destruct (Z.testbit b j) eqn:T; [|contradiction]. destruct X as [<-|[]]. split; [lia|]. replace (base + j + 1 - base - 1) with j by lia. exact T.
  - intros (R & T). exists (x - base - 1). split; [cbn; lia|]. rewrite land_bit, T by lia. left. lia.
Qed.
Lemma nodelist_reads : forall n i acc q bs, (n <= length bs)%nat -> exists l r, nodelist_loop n i acc (at_ q bs) = Ok (l, r) /\
  (NoDup acc -> NoDup l) /\
  forall x, In x l <-> In x acc \/ i * 8 + 1 <= x <= (i + Z.of_nat n) * 8 /\ Z.testbit (nth (Z.to_nat ((x - i * 8 - 1) / 8)) bs 0) ((x - 1) mod 8) = true.
Proof.
  induction n as [|n IH]; intros i acc q bs L; cbn [nodelist_loop].
  - exists acc, (at_ q bs). split; [reflexivity|]. split; [auto|]. intros x. split; [auto|]. intros [H|[H _]]; [exact H|lia].
  - destruct bs as [|b bs]; cbn [length] in L; [lia|]. change (b :: bs) with ([b] ++ bs). rewrite (at_value q [b] bs 1) by reflexivity. cbn [bind].
    change (from_bytes_u [b]) with b.
    set (acc' := fold_left _ _ _).
    destruct (IH (i + 1) acc' (q ++ [b]) bs ltac:(lia)) as (l & r & E & N & M). exists l, r. split; [exact E|]. split.
    { intros X. apply N. apply (fold_set (bit_ids (i * 8) b) acc). exact X. }
    intros x. rewrite M. unfold acc'. rewrite (proj1 (fold_set (bit_ids (i * 8) b) acc) x), bit_ids_in. cbn [app].
    assert (H8 : forall k, i * 8 + 1 <= x <= i * 8 + 8 -> Z.testbit b (x - i * 8 - 1) = Z.testbit (nth (Z.to_nat ((x - i * 8 - 1) / 8)) (b :: bs) 0) ((x - 1) mod 8) \/ k = 1).
    { intros k R. left. replace ((x - i * 8 - 1) / 8) with 0 by lia. cbn [nth Z.to_nat]. f_equal. lia. }
    assert (H9 : (i + 1) * 8 + 1 <= x -> nth (Z.to_nat ((x - i * 8 - 1) / 8)) (b :: bs) 0 = nth (Z.to_nat ((x - (i + 1) * 8 - 1) / 8)) bs 0).
    { intros R. replace (Z.to_nat ((x - i * 8 - 1) / 8)) with (S (Z.to_nat ((x - (i + 1) * 8 - 1) / 8))) by lia. reflexivity. }
    specialize (H8 0). split.
    + intros [[[R T]|I]|[R T]]; [right|left; exact I|right].
      * split; [lia|]. destruct (H8 ltac:(lia)) as [X|X]; [congruence|lia].
      * split; [lia|]. rewrite H9 by lia. exact T.
    + intros [I|[R T]]; [auto|]. destruct (Z.le_gt_cases x (i * 8 + 8)).
      * left. left. split; [lia|]. destruct (H8 ltac:(lia)) as [X|X]; [congruence|lia].
      * right. split; [lia|]. rewrite H9 in T by lia. exact T.
Qed.
Lemma nodelist_eof : forall n i acc q bs, (length bs < n)%nat -> nodelist_loop n i acc (at_ q bs) = Err EEOF.
Proof.
  induction n as [|n IH]; intros i acc q bs L; cbn [nodelist_loop]; [lia|]. destruct bs as [|b bs].
  - rewrite at_value_eof by (unfold zlen; cbn; lia). reflexivity.
  - change (b :: bs) with ([b] ++ bs). rewrite (at_value q [b] bs 1) by reflexivity. cbn [bind]. apply IH. cbn [length] in L. lia.
Qed.

Definition nodelist_class (s : schema) (n : string) (k : nat) : Prop :=
  s = m_NetworkManagementProxy_NodeListReport /\ n = "nodes" /\ k = 3%nat \/
  s = m_NetworkManagementProxy_FailedNodeListReport /\ n = "failedNodeList" /\ k = 1%nat.
Local Ltac in_reg := unfold registry; repeat (first [left; reflexivity | right]).
Lemma node_list s n k h mask : nodelist_class s n k -> length h = k -> bytes_ok h -> bytes_ok mask ->
  match mask with
  | [] => exists d, decode (s_cls s :: s_cmd s :: h) = Ok (VObj (CMsg s) d) /\ aget n d = None
  | _ => if (length mask <? 28)%nat then decode (s_cls s :: s_cmd s :: h ++ mask) = Err EEOF
         else exists d l, decode (s_cls s :: s_cmd s :: h ++ mask) = Ok (VObj (CMsg s) d) /\ aget n d = Some (VNodeList l) /\ NoDup l /\
           forall x, In x l <-> 1 <= x <= 224 /\ mask_bit mask x = true
  end.
Proof.
  intros C L BH BM.
  assert (X : exists pre, In s registry /\ s_attrs s = pre ++ [mkA n TNodeList None None] /\ fixed pre = true /\
     declared n pre = None /\ (8 * length h)%nat = bitsum pre).
  { destruct C as [(-> & -> & ->)|(-> & -> & ->)]; [exists (firstn 3 (s_attrs m_NetworkManagementProxy_NodeListReport))|exists (firstn 1 (s_attrs m_NetworkManagementProxy_FailedNodeListReport))];
    (split; [in_reg|]); rewrite L; repeat split; reflexivity. }
  destruct X as (pre & Hs & EA & FX & DN & L1). destruct mask as [|b mask'].
  - destruct (frame_last_none s pre (mkA n TNodeList None None) h Hs EA FX DN BH L1) as (d & E & _ & G). eauto.
  - set (mask := b :: mask') in *. destruct (Nat.ltb_spec (length mask) 28) as [S|G].
    + apply (frame_last_err s pre _ h Hs EA FX BH L1); [exact BM|discriminate|]. intros d q f _. unfold field_parse. cbn [a_parse a_ty ds2 ds0].
      unfold nodelist_deserialize. rewrite nodelist_eof by exact S. reflexivity.
    + destruct (frame_last s pre (mkA n TNodeList None None) h Hs EA FX DN BH L1 mask
        (fun v => exists l, v = VNodeList l /\ NoDup l /\ forall x, In x l <-> 1 <= x <= 224 /\ mask_bit mask x = true) BM) as (d & v & E & _ & GV & l & -> & N & M).
      { discriminate. }
      { intros d q f _. unfold field_parse. cbn [a_parse a_ty ds2 ds0]. unfold nodelist_deserialize.
        destruct (nodelist_reads 28 0 [] q mask G) as (l & r & E & N & M). rewrite E. cbn [bind].
        exists (VNodeList l), r, (VNodeList l). split; [reflexivity|]. split; [reflexivity|]. exists l. split; [reflexivity|].
        split; [apply N; constructor|]. intros x. rewrite M. unfold mask_bit. replace (x - 0 * 8 - 1) with (x - 1) by lia.
        split; [intros [[]|[R T]]; split; [lia|exact T]|intros [R T]; right; split; [lia|exact T]]. }
      exists d, l. auto.
Qed.

(** ** sensor mask *)
Lemma sensors_reads : forall f v i acc, 0 <= v < 2 ^ Z.of_nat f ->
  (forall t, i <= t -> Z.testbit v (t - i) = true -> In t sensor_types) ->
  exists l, sensors_loop f v i acc = Ok l /\ (NoDup acc -> NoDup l) /\
    forall t, In t l <-> In t acc \/ i <= t /\ Z.testbit v (t - i) = true.
Proof.
  induction f as [|f IH]; intros v i acc R K; cbn [sensors_loop].
  - exists acc. split; [reflexivity|]. split; [auto|]. intros t. split; [auto|]. intros [H|[_ H]]; [exact H|].
    replace v with 0 in H by (cbn in R; lia). rewrite Z.bits_0 in H. discriminate.
  - destruct (Z.leb_spec v 0).
    { exists acc. split; [reflexivity|]. split; [auto|]. intros t. split; [auto|]. intros [H1|[_ H1]]; [exact H1|].
      replace v with 0 in H1 by lia. rewrite Z.bits_0 in H1. discriminate. }
    assert (R' : 0 <= Z.shiftr v 1 < 2 ^ Z.of_nat f).
    { rewrite Z.shiftr_div_pow2 by lia. change (2 ^ 1) with 2. rewrite Nat2Z.inj_succ, Z.pow_succ_r in R by lia. lia. }
    assert (K' : forall t, i + 1 <= t -> Z.testbit (Z.shiftr v 1) (t - (i + 1)) = true -> In t sensor_types).
    { intros t T. rewrite Z.shiftr_spec by lia. replace (t - (i + 1) + 1) with (t - i) by lia. intros X. apply K; [lia|exact X]. }
    assert (BIT : (Z.land v 1 =? 1) = Z.testbit v 0).
    { rewrite Z.testbit_eqb by lia. change (2 ^ 0) with 1. rewrite Z.div_1_r. change (Z.land v 1) with (Z.land v (Z.ones 1)). rewrite Z.land_ones by lia. reflexivity. }
    rewrite BIT.
    assert (ST : exists acc', (if Z.testbit v 0 then if existsb (Z.eqb i) sensor_types then Ok (set_add i acc) else Err EValue else Ok acc) = Ok acc' /\
      (NoDup acc -> NoDup acc') /\ forall t, In t acc' <-> In t acc \/ t = i /\ Z.testbit v 0 = true).
    { destruct (Z.testbit v 0) eqn:T0.
      - assert (existsb (Z.eqb i) sensor_types = true) as ->.
        { apply existsb_exists. exists i. rewrite Z.eqb_refl. split; [|reflexivity]. apply K; [lia|]. replace (i - i) with 0 by lia. exact T0. }
        exists (set_add i acc). split; [reflexivity|]. split; [apply set_add_nodup|]. intros t. rewrite set_add_in. intuition.
      - exists acc. split; [reflexivity|]. split; [auto|]. intros t. intuition discriminate. }
    destruct ST as (acc' & -> & N1 & M1). cbn [bind].
    destruct (IH (Z.shiftr v 1) (i + 1) acc' R' K') as (l & -> & N2 & M2). exists l. split; [reflexivity|]. split; [auto|].
    intros t. rewrite M2, M1. split.
    + intros [[I|[-> T]]|[G T]]; [auto|right; split; [lia|replace (i - i) with 0 by lia; exact T]|].
      right. split; [lia|]. rewrite Z.shiftr_spec in T by lia. replace (t - (i + 1) + 1) with (t - i) in T by lia. exact T.
    + intros [I|[G T]]; [auto|]. destruct (Z.eq_dec t i) as [->|N].
      * left. right. split; [reflexivity|]. replace (i - i) with 0 in T by lia. exact T.
      * right. split; [lia|]. rewrite Z.shiftr_spec by lia. replace (t - (i + 1) + 1) with (t - i) by lia. exact T.
Qed.
Lemma sensors_unknown : forall f v i acc t, 0 <= v < 2 ^ Z.of_nat f -> i <= t -> Z.testbit v (t - i) = true -> ~ In t sensor_types ->
  sensors_loop f v i acc = Err EValue.
Proof.
  induction f as [|f IH]; intros v i acc t R G T N; cbn [sensors_loop].
  - replace v with 0 in T by (cbn in R; lia). rewrite Z.bits_0 in T. discriminate.
  - destruct (Z.leb_spec v 0). { replace v with 0 in T by lia. rewrite Z.bits_0 in T. discriminate. }
    assert (R' : 0 <= Z.shiftr v 1 < 2 ^ Z.of_nat f).
    { rewrite Z.shiftr_div_pow2 by lia. change (2 ^ 1) with 2. rewrite Nat2Z.inj_succ, Z.pow_succ_r in R by lia. lia. }
    assert (BIT : (Z.land v 1 =? 1) = Z.testbit v 0).
    { rewrite Z.testbit_eqb by lia. change (2 ^ 0) with 1. rewrite Z.div_1_r. change (Z.land v 1) with (Z.land v (Z.ones 1)). rewrite Z.land_ones by lia. reflexivity. }
    rewrite BIT. destruct (Z.eq_dec t i) as [->|NE].
    + replace (i - i) with 0 in T by lia. rewrite T. destruct (existsb (Z.eqb i) sensor_types) eqn:E; [|reflexivity].
      apply existsb_exists in E as (y & I & Q). apply Z.eqb_eq in Q. subst. contradiction.
    + assert (X : forall acc', sensors_loop f (Z.shiftr v 1) (i + 1) acc' = Err EValue).
      { intros acc'. apply (IH _ _ _ t); [exact R'|lia| |exact N]. rewrite Z.shiftr_spec by lia. replace (t - (i + 1) + 1) with (t - i) by lia. exact T. }
      destruct (Z.testbit v 0); [destruct (existsb (Z.eqb i) sensor_types); [|reflexivity]|]; cbn [bind]; apply X.
Qed.
Lemma from_bytes_snoc bs b : from_bytes_u (bs ++ [b]) = from_bytes_u bs * 256 + b.
Proof. unfold from_bytes_u. rewrite fold_left_app. reflexivity. Qed.
Lemma from_bytes_range bs : bytes_ok bs -> 0 <= from_bytes_u bs < 2 ^ (8 * zlen bs).
Proof.
  intros B. induction bs as [|b bs IH] using rev_ind; [split; [discriminate|reflexivity]|]. rewrite from_bytes_snoc. apply bytes_ok_app in B as [B1 B2]. inversion B2; subst.
  specialize (IH B1). rewrite zlen_app. change (zlen [b]) with 1. pose proof (zlen_nonneg bs).
  replace (8 * (zlen bs + 1)) with (8 * zlen bs + 8) by lia. rewrite Z.pow_add_r by lia. change (2 ^ 8) with 256. nia.
Qed.
(** bit [k] of a big endian number lies in the byte counted from the end *)
Lemma from_bytes_bit bs k : bytes_ok bs -> 0 <= k -> Z.testbit (from_bytes_u bs) k = Z.testbit (nth (Z.to_nat (k / 8)) (rev bs) 0) (k mod 8).
Proof.
  intros B. revert k. induction bs as [|b bs IH] using rev_ind; intros k K.
  - cbn [rev]. change (from_bytes_u []) with 0. destruct (Z.to_nat (k / 8)); cbn [nth]; rewrite !Z.bits_0; reflexivity.
  - rewrite from_bytes_snoc, rev_app_distr. cbn [rev app]. apply bytes_ok_app in B as [B1 B2]. inversion B2 as [|? ? RB _]; subst.
    assert (V : from_bytes_u bs * 256 + b = Z.lor (Z.shiftl (from_bytes_u bs) 8) b).
    { rewrite Z.shiftl_mul_pow2 by lia. change (2 ^ 8) with 256.
      apply Z.bits_inj'. intros j J. rewrite Z.lor_spec.
      destruct (Z.lt_ge_cases j 8).
      - assert (Z.testbit (from_bytes_u bs * 256) j = false) as ->. { change 256 with (2 ^ 8). apply Z.mul_pow2_bits_low. lia. }
        cbn [orb]. rewrite !Z.testbit_eqb by lia. f_equal.
        assert ((from_bytes_u bs * 256 + b) / 2 ^ j = from_bytes_u bs * 2 ^ (8 - j) + b / 2 ^ j) as ->.
        { replace (from_bytes_u bs * 256) with (from_bytes_u bs * 2 ^ (8 - j) * 2 ^ j).
          - rewrite Z.add_comm, Z.div_add by (apply Z.pow_nonzero; lia). lia.
          - rewrite <- Z.mul_assoc, <- Z.pow_add_r by lia. replace (8 - j + j) with 8 by lia. reflexivity. }
        replace (8 - j) with (1 + (7 - j)) by lia. rewrite Z.pow_add_r by lia. change (2 ^ 1) with 2.
        rewrite Z.add_comm. rewrite <- (Z.mod_add (b / 2 ^ j) (from_bytes_u bs * 2 ^ (7 - j)) 2) by lia. f_equal. lia.
      - assert (Z.testbit b j = false) as ->.
        { rewrite Z.testbit_eqb by lia. rewrite Z.div_small; [reflexivity|]. split; [lia|]. assert (2 ^ 8 <= 2 ^ j) by (apply Z.pow_le_mono_r; lia). change (2 ^ 8) with 256 in H0. lia. }
        rewrite orb_false_r. rewrite !Z.testbit_eqb by lia. f_equal. f_equal.
        replace j with (8 + (j - 8)) by lia. rewrite Z.pow_add_r by lia. change (2 ^ 8) with 256.
        rewrite <- !Z.div_div by lia. f_equal. lia. }
    rewrite V, Z.lor_spec. destruct (Z.lt_ge_cases k 8).
    + rewrite Z.shiftl_spec_low by lia. replace (k / 8) with 0 by lia. cbn [Z.to_nat nth orb]. f_equal. lia.
    + rewrite Z.shiftl_spec by lia. rewrite IH by (assumption || lia).
      assert (Z.testbit b k = false) as ->.
      { rewrite Z.testbit_eqb by lia. rewrite Z.div_small; [reflexivity|]. split; [lia|]. assert (2 ^ 8 <= 2 ^ k) by (apply Z.pow_le_mono_r; lia). change (2 ^ 8) with 256 in H0. lia. }
      rewrite orb_false_r. replace (Z.to_nat (k / 8)) with (S (Z.to_nat ((k - 8) / 8))) by lia. cbn [nth]. f_equal. lia.
Qed.
Lemma sensor_report mask : bytes_ok mask -> mask <> [] ->
  let bit t := Z.testbit (nth (Z.to_nat ((t - 1) / 8)) (rev mask) 0) ((t - 1) mod 8) in
  ((forall t, 1 <= t -> bit t = true -> In t sensor_types) ->
     exists d l, decode (49 :: 2 :: mask) = Ok (VObj (CMsg m_SensorMultilevel_SupportedSensorReport) d) /\
       aget "bitMask" d = Some (VSensors l) /\ NoDup l /\ forall t, In t l <-> 1 <= t /\ bit t = true) /\
  ((exists t, 1 <= t /\ bit t = true /\ ~ In t sensor_types) -> decode (49 :: 2 :: mask) = Err EValue).
Proof.
  intros B NE bit.
  assert (BT : forall t, 1 <= t -> Z.testbit (from_bytes_u mask) (t - 1) = bit t) by (intros t T; unfold bit; apply from_bytes_bit; [exact B|lia]).
  assert (RG : 0 <= from_bytes_u mask < 2 ^ Z.of_nat (8 * length mask)).
  { pose proof (from_bytes_range mask B) as X. unfold zlen in X. replace (Z.of_nat (8 * length mask)) with (8 * Z.of_nat (length mask)) by lia. exact X. }
  assert (Hs : In m_SensorMultilevel_SupportedSensorReport registry) by in_reg.
  set (a := mkA "bitMask" TSensors None None).
  split.
  - intros K.
    destruct (frame_last _ [] a [] Hs eq_refl eq_refl eq_refl ltac:(constructor) eq_refl mask
      (fun v => exists l, v = VSensors l /\ NoDup l /\ forall t, In t l <-> 1 <= t /\ bit t = true) B NE) as (d & v & E & _ & GV & l & -> & N & M).
    { intros d q f _. unfold field_parse. cbn [a a_parse a_ty ds2 ds0]. unfold sensors_deserialize.
      pose proof (at_remaining q mask) as RM. destruct (remaining (at_ q mask)) as [bs r]. cbn [fst] in RM. subst bs.
      destruct (sensors_reads (8 * length mask) (from_bytes_u mask) 1 [] RG) as (l & -> & N & M).
      { intros t T X. apply K; [exact T|]. rewrite <- BT by exact T. exact X. }
      cbn [bind]. exists (VSensors l), r, (VSensors l). split; [reflexivity|]. split; [reflexivity|]. exists l. split; [reflexivity|].
      split; [apply N; constructor|]. intros t. rewrite M. split; [intros [[]|[T X]]|intros [T X]; right]; (split; [exact T|]); [rewrite <- BT|rewrite BT]; assumption. }
    exists d, l. auto.
  - intros (t & T & X & N). apply (frame_last_err _ [] a [] Hs eq_refl eq_refl ltac:(constructor) eq_refl mask _ B NE).
    intros d q f _. unfold field_parse. cbn [a a_parse a_ty ds2 ds0]. unfold sensors_deserialize.
    pose proof (at_remaining q mask) as RM. destruct (remaining (at_ q mask)) as [bs r]. cbn [fst] in RM. subst bs.
    rewrite (sensors_unknown _ _ _ _ t RG T); [reflexivity| |exact N]. rewrite BT by exact T. exact X.
Qed.
