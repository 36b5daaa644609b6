(** Constructors, out of range values, bit streams, re-encoding and comparison. *)
From Coq Require Import String ZArith List Bool Lia ZifyBool ZifyNat.
From Verif Require Import Py BitStream Schema Registry Codec SpecBits BitLemmas ReaderLemmas WriterLemmas SpecWire
  SpecDecode SpecRound SpecStream EncodeProofs DecodeLemmas DecodeProofs.
Import ListNotations.
Open Scope list_scope.
Open Scope Z_scope.
Local Ltac Zify.zify_post_hook ::= Z.div_mod_to_equations.

(** ** constructors *)
Lemma member_args_ok l vs : Forall2 member_arg l vs -> map_res node_of_val vs = Ok l.
Proof.
  induction 1 as [|x v l vs M F IH]; cbn [map_res]; [reflexivity|].
  destruct M; cbn [node_of_val to_int is_int bind]; rewrite IH; reflexivity.
Qed.

Inductive argfield (d : adict) (a : attr) (v' : val) (b : list bool) : Prop :=
| AF_bits : field_bits (a_ty a) v' b -> argfield d a v' b
| AF_msg : a_ty a = TMsg -> encodes v' b -> argfield d a v' b.

Lemma arg_coerce d a v b : arg_bits (a_ty a) v b -> exists v', init_coerce (a_ty a) v = Ok v' /\ argfield d a v' b.
Proof.
  intros H. unfold init_coerce. remember (a_ty a) as t eqn:T. destruct H.
  - exists (VI sg sz z). split; [reflexivity|]. apply AF_bits. rewrite <- T. constructor. assumption.
  - exists (VU n z). split; [reflexivity|]. apply AF_bits. rewrite <- T. constructor. assumption.
  - exists (VB n z). split; [reflexivity|]. apply AF_bits. rewrite <- T. constructor. assumption.
  - exists (VB n z). split; [reflexivity|]. apply AF_bits. rewrite <- T. constructor. assumption.
  - exists (VF (if f then 1 else 0)). split; [destruct f; reflexivity|]. apply AF_bits. rewrite <- T. constructor.
  - exists (VBytes bs). split; [reflexivity|]. apply AF_bits. rewrite <- T. constructor. assumption.
  - exists (VDsk bs). split.
    + cbn [is_mixin has_setstate setstate dsk_setstate]. unfold zlen. rewrite H0. reflexivity.
    + apply AF_bits. rewrite <- T. constructor; assumption.
  - exists (VIPv6 z). split; [reflexivity|]. apply AF_bits. rewrite <- T. constructor. assumption.
  - exists (VNodes l). split.
    + cbn [is_mixin has_setstate setstate]. unfold nodes_setstate. cbn [iter_val bind]. rewrite (member_args_ok _ _ H0). reflexivity.
    + apply AF_bits. rewrite <- T. constructor; assumption.
  - exists m. split; [destruct H; reflexivity|]. apply AF_msg; [congruence|exact H].
Qed.

Lemma init_attrs_ok kw : forall l d,
  (forall a v, In a l -> aget (a_name a) kw = Some v -> exists v', init_coerce (a_ty a) v = Ok v') ->
  (forall a a', In a l -> In a' l -> a_name a = a_name a' -> aget (a_name a) kw <> None -> a_ty a = a_ty a') ->
  exists d', init_attrs l kw d = Ok d' /\
  (forall a v v', In a l -> aget (a_name a) kw = Some v -> init_coerce (a_ty a) v = Ok v' -> aget (a_name a) d' = Some v') /\
  (forall n, aget n kw = None \/ ~ In n (map a_name l) -> aget n d' = aget n d).
Proof.
  induction l as [|a l IH]; intros d H1 H2.
  - exists d. split; [reflexivity|]. split; [intros ? ? ? []|reflexivity].
  - cbn [init_attrs].
    destruct (aget (a_name a) kw) as [v|] eqn:G.
    + destruct (H1 a v (or_introl eq_refl) G) as [v' C]. rewrite C. cbn [bind].
      destruct (IH (aset (a_name a) v' d)) as (d' & E & K1 & K2).
      { intros. eapply H1; [right; eassumption|eassumption]. } { intros. apply H2; try right; assumption. }
      exists d'. split; [exact E|]. split.
      * intros a0 v0 v0' [<-|HI] G0 C0; [|eapply K1; eassumption].
        destruct (in_dec string_dec (a_name a) (map a_name l)) as [IN|NI].
        -- apply in_map_iff in IN as (a1 & N1 & I1). rewrite <- N1. apply (K1 a1 v0 v0'); [exact I1|congruence|].
           rewrite <- (H2 a a1 (or_introl eq_refl) (or_intror I1)); [exact C0|congruence|congruence].
        -- rewrite K2 by (right; exact NI). rewrite aget_aset_same. congruence.
      * intros n [N|N].
        -- rewrite K2 by (left; exact N). apply aget_aset_other. congruence.
        -- rewrite K2 by (right; intros X; apply N; cbn; auto). apply aget_aset_other. intros ->. apply N. cbn. auto.
    + destruct (IH d) as (d' & E & K1 & K2).
      { intros. eapply H1; [right; eassumption|eassumption]. } { intros. apply H2; try right; assumption. }
      exists d'. split; [exact E|]. split.
      * intros a0 v0 v0' [<-|HI] G0 C0; [congruence|eapply K1; eassumption].
      * intros n [N|N]; apply K2; [left; exact N|right; intros X; apply N; cbn; auto].
Qed.

Lemma args_in s kw l b : args s kw l b -> forall a v, In a l -> aget (a_name a) kw = Some v ->
  (exists b, arg_bits (a_ty a) v b) /\ (forall a', In a' (s_attrs s) -> a_name a' = a_name a -> a_ty a' = a_ty a).
Proof.
  induction 1 as [|a l b bs G D A IH|a l v b bs G C AB U A IH]; intros a0 v0 HI G0; [contradiction| |];
    (destruct HI as [<-|HI]; [|eapply IH; eassumption]).
  - congruence.
  - rewrite G in G0. injection G0 as <-. eauto.
Qed.

Lemma new_msg_encodes s kw b : In s registry -> args s kw (s_attrs s) b ->
  exists d, new_msg s kw = Ok (VObj (CMsg s) d) /\ encodes (VObj (CMsg s) d) (nbits 8 (s_cls s) ++ nbits 8 (s_cmd s) ++ b)
    /\ forall n, aget n kw = None -> aget n d = None.
Proof.
  intros Hs A. pose proof (args_in _ _ _ _ A) as AI.
  destruct (init_attrs_ok kw (s_attrs s) []) as (d & E & K1 & K2).
  { intros a v HI G. destruct (AI a v HI G) as [[b0 AB] _]. destruct (arg_coerce [] a v b0 AB) as (v' & C & _). eauto. }
  { intros a a' HI HI' N G. destruct (aget (a_name a) kw) as [v|] eqn:GK; [|contradiction].
    destruct (AI a v HI GK) as [_ U]. symmetry. apply U; [exact HI'|congruence]. }
  exists d. unfold new_msg. rewrite E. split; [reflexivity|]. split; [|intros n N; rewrite K2 by auto; reflexivity].
  constructor; [exact Hs|].
  enough (X : forall l b, args s kw l b -> incl l (s_attrs s) -> fields d l b) by (apply X; [exact A|apply incl_refl]).
  clear A b. intros l b A. induction A as [|a l b bs G D A IH|a l v b bs G C AB U A IH]; intros INC; constructor.
  - apply F_unset; [|exact D]. rewrite K2 by auto. reflexivity.
  - apply IH. intros x Hx; apply INC; right; exact Hx.
  - destruct (arg_coerce d a v b AB) as (v' & C0 & AF). pose proof (K1 a v v' (INC a (or_introl eq_refl)) G C0) as GD.
    destruct AF as [FB|T EN]; [eapply F_set; eassumption|eapply F_cmd; eassumption].
  - apply IH. intros x Hx; apply INC; right; exact Hx.
Qed.

(** ** C04 *)
Lemma addBits_reject z n w : 0 <= w_start w -> 0 <= n -> w_start w + n <= 8 ->
  (w_start w <> 0 -> bytes_ok (w_buf w)) ->
  (z < 0 \/ 2 ^ (w_start w + n) <= z) -> addBits z n w = Err EValue.
Proof.
  intros H0 Hn H8 HB H. unfold addBits.
  destruct (Z.ltb_spec (8 - w_start w - n) 0); [lia|].
  match goal with |- context [Z.lor ?b _] => assert (HBY : 0 <= b) end.
  { destruct (Z.eqb_spec (w_start w) 0); [lia|]. specialize (HB n0). clear - HB.
    destruct (w_buf w) as [|x l] eqn:E; [cbn; lia|]. assert (IN : In (last (x :: l) 0) (x :: l)).
    { destruct (exists_last (l := x :: l) ltac:(discriminate)) as (l' & y & EL). rewrite EL, last_last. apply in_or_app. right. left. reflexivity. }
    unfold bytes_ok in HB. rewrite Forall_forall in HB. specialize (HB _ IN). lia. }
  match goal with |- context [is_byte ?x] => assert (HX : is_byte x = false) end; [|rewrite HX; reflexivity].
  set (byte := if w_start w =? 0 then 0 else last (w_buf w) 0) in *. set (sh := 8 - w_start w - n) in *.
  assert (is_byte (Z.lor byte (Z.shiftl z sh)) = true -> False); [|destruct (is_byte _); [exfalso; auto|reflexivity]].
  rewrite is_byte_spec. intros [L U]. destruct H as [H|H].
  - assert (Z.lor byte (Z.shiftl z sh) < 0); [|lia]. apply Z.lor_neg. right. apply Z.shiftl_neg. exact H.
  - assert (256 <= Z.shiftl z sh).
    { rewrite Z.shiftl_mul_pow2 by lia. replace 256 with (2 ^ (w_start w + n) * 2 ^ sh).
      - apply Z.mul_le_mono_nonneg_r; [apply Z.pow_nonneg; lia|exact H].
      - rewrite <- Z.pow_add_r by lia. replace (w_start w + n + sh) with 8 by (unfold sh; lia). reflexivity. }
    assert (Z.shiftl z sh <= Z.lor byte (Z.shiftl z sh)); [|lia].
    assert (0 <= z) by (pose proof (Z.pow_nonneg 2 (w_start w + n)); lia).
    assert (E : Z.ldiff (Z.shiftl z sh) (Z.lor byte (Z.shiftl z sh)) = 0).
    { apply Z.bits_inj'. intros i Hi. rewrite Z.ldiff_spec, Z.lor_spec, Z.bits_0.
      destruct (Z.testbit byte i), (Z.testbit (Z.shiftl z sh) i); reflexivity. }
    apply (Z.ldiff_le (Z.shiftl z sh) (Z.lor byte (Z.shiftl z sh))); [lia|exact E].
Qed.

Lemma compose_attrs_app d sers l1 l2 w : compose_attrs d sers (l1 ++ l2) w =
  bind (compose_attrs d sers l1 w) (fun w' => compose_attrs d sers l2 w').
Proof.
  revert w. induction l1 as [|a l1 IH]; intros w; cbn [app compose_attrs bind]; [reflexivity|].
  destruct (compose_attr d sers a w); cbn [bind]; [apply IH|reflexivity].
Qed.

(** the fields before a position leave the writer in a known state *)
Lemma compose_prefix d pre post b : fields d pre b -> forall w wb, al (pre ++ post) (w_start w) = true -> winv w wb ->
  exists w', compose_attrs d (sers_of d) pre w = Ok w' /\ winv w' (wb ++ b) /\ al post (w_start w') = true.
Proof.
  induction 1 as [|d a l b bs Fa Fl IH]; intros w wb A W.
  - exists w. rewrite app_nil_r. auto.
  - cbn [app al] in A.
    destruct (proj2 (proj2 compose_all) d a b Fa w wb W) as (w1 & E1 & W1 & S1).
    { destruct (sub_width (a_ty a)); lia. }
    destruct (IH w1 (wb ++ b)) as (w2 & E2 & W2 & A2).
    { rewrite S1. destruct (sub_width (a_ty a)); apply andb_prop in A as [_ A]; exact A. } { exact W1. }
    exists w2. cbn [compose_attrs]. rewrite E1. cbn [bind]. rewrite E2, app_assoc. auto.
Qed.

Lemma reject_out_of_range s d pre a post b v :
  In s registry -> s_attrs s = pre ++ a :: post -> fields d pre b ->
  aget (a_name a) d = Some v -> a_compose a = None -> typed (a_ty a) v ->
  noticed (Z.of_nat (length b) mod 8) v ->
  exists e, compose (VObj (CMsg s) d) = Err e.
Proof.
  intros Hs EA F G C TY N. destruct (registry_cls_bytes s Hs) as [C1 C2]. cbn [compose]. unfold compose_with.
  destruct (addBytes_ok false 1 (s_cls s) new_writer [] winv_new eq_refl C1) as (w1 & E1 & W1 & S1).
  change (Z.of_nat 1) with 1 in E1. rewrite E1. cbn [bind].
  destruct (addBytes_ok false 1 (s_cmd s) w1 _ W1 S1 C2) as (w2 & E2 & W2 & S2).
  change (Z.of_nat 1) with 1 in E2. rewrite E2. cbn [bind].
  pose proof (registry_aligned s Hs) as AL. rewrite EA in AL. rewrite <- S2 in AL.
  destruct (compose_prefix d pre (a :: post) b F w2 _ AL W2) as (w3 & E3 & W3 & A3).
  rewrite EA, compose_attrs_app, E3. cbn [bind compose_attrs].
  assert (LEN : w_start w3 = Z.of_nat (length b) mod 8).
  { destruct W3 as (_ & _ & L & _). rewrite app_length in L. cbn [app] in L. rewrite app_length, !nbits_length in L. lia. }
  rewrite <- LEN in N.
  assert (RJ : exists e, compose_attr d (sers_of d) a w3 = Err e).
  { unfold compose_attr. rewrite G, C. cbn [al] in A3.
    destruct (a_ty a) as [sg sz|n|n| |n| | | | | | | | | | | | | | |] eqn:T; destruct v; cbn in TY; try contradiction; cbn [has_serialize];
      rewrite (dget_sers _ _ _ G); cbn [serialize serialize_simple]; cbn [sub_width] in A3; cbn [noticed] in N.
    - destruct TY as [<- <-]. unfold addBytes. rewrite to_bytes_overflow by exact N. eexists. reflexivity.
    - subst n0. eexists. apply addBits_reject; try (apply W3); try lia. intros _. apply W3.
    - subst n0. eexists. apply addBits_reject; try (apply W3); try lia. intros _. apply W3.
    - subst n0. eexists. apply addBits_reject; try (apply W3); try lia. intros _. apply W3. }
  destruct RJ as [e RJ]. rewrite RJ. cbn [bind]. eauto.
Qed.

(** ** C08 *)
Lemma write_all_ok : forall l w b, winv w b -> pieces_ok (w_start w) l ->
  exists w', write_all l w = Ok w' /\ winv w' (b ++ flat_map piece_bits l).
Proof.
  induction l as [|[n z|sg sz z] l IH]; intros w b W P; cbn [write_all flat_map piece_bits write1].
  - exists w. rewrite app_nil_r. auto.
  - destruct P as (P1 & P2 & P3 & P4). destruct (addBits_ok z n w b W) as (w1 & E1 & W1 & S1); try assumption.
    rewrite E1. cbn [bind]. rewrite <- S1 in P4. destruct (IH _ _ W1 P4) as (w2 & E2 & W2).
    exists w2. rewrite app_assoc. auto.
  - destruct P as (P1 & P2 & P3). destruct (addBytes_ok sg sz z w b W P1 P2) as (w1 & E1 & W1 & S1).
    rewrite E1. cbn [bind]. rewrite <- S1 in P3. destruct (IH _ _ W1 P3) as (w2 & E2 & W2).
    exists w2. rewrite app_assoc. auto.
Qed.

Lemma read_all_ok : forall l r t, rok r -> rest r = flat_map piece_bits l ++ t -> pieces_ok (r_pos r mod 8) l ->
  read_all l r = Ok (map piece_val l).
Proof.
  induction l as [|[n z|sg sz z] l IH]; intros r t R E P; cbn [read_all flat_map piece_bits read1 map piece_val] in *.
  - reflexivity.
  - destruct P as (P1 & P2 & P3 & P4). rewrite <- app_assoc in E.
    destruct (rbits_ok n r _ _ P1 R P2 E) as (E1 & R1 & RE1). { rewrite nbits_length. lia. }
    rewrite E1. cbn [bind]. rewrite num_nbits_small by (rewrite Z2Nat.id by lia; exact P3).
    rewrite (IH _ t R1 RE1); [reflexivity|]. rewrite advance_pos.
    replace ((r_pos r + n) mod 8) with ((r_pos r mod 8 + n) mod 8) by lia. exact P4.
  - destruct P as (P1 & P2 & P3). rewrite <- app_assoc in E.
    destruct (rvalue_ok (Z.of_nat sz) r _ _ ltac:(lia) R P1 E) as (bs & E1 & B & EB & Lb & R1 & A1 & RE1). { rewrite nbits_length. lia. }
    rewrite E1. cbn [bind]. replace (from_bytes sg bs) with z.
    + rewrite (IH _ t R1 RE1); [reflexivity|]. rewrite (aligned_of _ A1). exact P3.
    + symmetry. unfold from_bytes. destruct sg.
      * rewrite from_bytes_s_snum, EB by exact B. destruct P2 as [[-> ->]|[H1 H2]]; [reflexivity|]. apply snum_nbits; [lia|].
        replace (Z.of_nat (8 * sz) - 1) with (8 * Z.of_nat sz - 1) by lia. exact H2.
      * rewrite from_bytes_u_num, EB by exact B. apply num_nbits_small. cbn [fits] in P2. replace (Z.of_nat (8 * sz)) with (8 * Z.of_nat sz) by lia. exact P2.
Qed.

Lemma stream_round_trip l : pieces_ok 0 l ->
  exists w pad, write_all l new_writer = Ok w /\ bytes_ok (w_buf w) /\ bits_of (w_buf w) = flat_map piece_bits l ++ pad
    /\ (length pad < 8)%nat /\ (forall x, In x pad -> x = false)
    /\ read_all l (new_reader (w_buf w)) = Ok (map piece_val l).
Proof.
  intros P. destruct (write_all_ok l new_writer [] winv_new P) as (w & E & B & S & L & EB).
  exists w, (repeat false (Z.to_nat ((8 - w_start w) mod 8))). split; [exact E|]. split; [exact B|].
  split; [exact EB|]. split; [rewrite repeat_length; lia|]. split; [intros x Hx; apply repeat_spec in Hx; exact Hx|].
  destruct (new_reader_ok _ B) as (R & A & RE). eapply read_all_ok; [exact R|rewrite RE; exact EB|exact P].
Qed.

(** ** C19 *)
Lemma some_inj {A} (x y : A) : Some x = Some y -> x = y. Proof. congruence. Qed.
Lemma reads_field t c v : reads t c v -> width t = Some (length c) \/ t = TBytes ->
  (match sub_width t with Some n => 1 <= n | None => True end) -> field_bits t v c.
Proof.
  intros RD W SW. destruct RD; destruct W as [W|W]; try discriminate; cbn [width] in W; cbn [sub_width] in SW; try (apply some_inj in W).
  - rewrite <- (nbits_num c) at 2. rewrite <- W. constructor. cbn [fits]. pose proof (num_range c). rewrite <- W in H.
    replace (8 * Z.of_nat sz) with (Z.of_nat (8 * sz)) by lia. exact H.
  - assert (E : nbits (8 * sz) (snum c) = c).
    { destruct c as [|x c].
      - cbn in W. assert (sz = 0%nat) as -> by lia. reflexivity.
      - rewrite <- (nbits_num (x :: c)) at 2. rewrite <- W. destruct x; cbn [snum]; [|reflexivity].
        rewrite <- W. rewrite <- (nbits_mod (8 * sz) (8 * sz) (num (true :: c) - _)) by lia.
        rewrite Zminus_mod, Z_mod_same_full, Z.sub_0_r, Zmod_mod. apply nbits_mod. lia. }
    rewrite <- E at 2. constructor. unfold fits. destruct sz as [|sz]; [left; destruct c; [auto|cbn in W; lia]|].
    right. split; [lia|]. destruct c as [|x c]; [cbn in W; lia|].
    pose proof (num_range (x :: c)) as NR. rewrite <- W in NR. pose proof (num_range c) as NC. cbn [length] in W.
    assert (LC : Z.of_nat (length c) = 8 * Z.of_nat (S sz) - 1) by lia. rewrite LC in NC.
    assert (P2 : 2 ^ Z.of_nat (8 * S sz) = 2 * 2 ^ (8 * Z.of_nat (S sz) - 1)).
    { rewrite <- Z.pow_succ_r by lia. f_equal. lia. }
    rewrite num_cons in NR. destruct x; cbn [snum].
    + rewrite num_cons. cbn [length]. rewrite <- W, P2, LC. cbn [Z.b2z]. lia.
    + rewrite num_cons. cbn [Z.b2z]. lia.
  - rewrite <- (nbits_num c) at 2. rewrite <- W. constructor. pose proof (num_range c). rewrite <- W, Z2Nat.id in H by lia. exact H.
  - rewrite <- (nbits_num c) at 2. rewrite <- W. constructor. pose proof (num_range c). rewrite <- W, Z2Nat.id in H by lia. exact H.
  - rewrite <- (nbits_num c) at 2. rewrite <- W. constructor. pose proof (num_range c). rewrite <- W, Z2Nat.id in H by lia. exact H.
  - destruct c as [|x [|y c]]; cbn in W; try lia. replace (num [x]) with (if x then 1 else 0) by (destruct x; reflexivity). constructor.
  - subst c. constructor. assumption.
  - subst c. constructor; [assumption|]. rewrite bits_of_length in W. lia.
  - rewrite <- (nbits_num c) at 2. rewrite <- W. constructor. pose proof (num_range c). rewrite <- W in H. exact H.
Qed.

Lemma full_cut : forall l b, flat l = true -> full_payload l (length b) ->
  exists cs, cut l b = Some cs /\ concat cs = b /\ (length cs <= length l)%nat /\
    Forall2 (fun a c => width (a_ty a) = Some (length c) \/ a_ty a = TBytes) (firstn (length cs) l) cs /\
    Forall (fun a => a_ty a = TBytes \/ width (a_ty a) = Some 0%nat) (skipn (length cs) l).
Proof.
  induction l as [|a l IH]; intros b FL FP.
  - exists []. destruct FP as [FP|[FP _]]; [|discriminate]. destruct b; [|discriminate]. repeat split; constructor.
  - cbn [flat] in FL. destruct (a_parse a); [destruct (width (a_ty a)); discriminate|]. destruct (width (a_ty a)) as [n|] eqn:W.
    + assert (NB : match a_ty a with TBytes => true | _ => false end = false) by (destruct (a_ty a); cbn in W; try discriminate; reflexivity).
      assert (LB : (n <= length b)%nat).
      { destruct FP as [FP|[_ FP]]; cbn [fixed_bits] in FP; rewrite W in FP; lia. }
      assert (FP' : full_payload l (length (skipn n b))).
      { rewrite skipn_length. destruct FP as [FP|[O FP]]; cbn [fixed_bits] in FP; rewrite W in FP; [left; lia|right].
        unfold open_ended in *. cbn [existsb] in O. rewrite NB in O. split; [exact O|lia]. }
      destruct (IH _ FL FP') as (cs & E & CC & LL & F2 & FE).
      destruct b as [|x b].
      * (* nothing left *) assert (n = 0%nat) as -> by (cbn in LB; lia). rewrite skipn_nil in *.
        exists []. split; [reflexivity|]. split; [reflexivity|]. split; [cbn; lia|]. split; [constructor|]. cbn [skipn length].
        constructor; [right; exact W|]. assert (cs = []) by (destruct l; cbn in E; congruence). subst cs. exact FE.
      * exists (firstn n (x :: b) :: cs). cbn [cut]. rewrite W. destruct (Nat.ltb_spec (length (x :: b)) n); [lia|]. rewrite E.
        split; [reflexivity|]. split; [cbn [concat]; rewrite CC; apply firstn_skipn|]. split; [cbn [length]; lia|].
        cbn [length firstn skipn]. split; [|exact FE]. constructor; [|exact F2]. left. rewrite firstn_length_le by exact LB. exact W.
    + destruct (a_ty a) eqn:T; try discriminate. destruct l; [|discriminate]. destruct b as [|x b].
      * exists []. split; [reflexivity|]. split; [reflexivity|]. split; [cbn; lia|]. split; [constructor|]. constructor; [left; exact T|constructor].
      * exists [x :: b]. cbn [cut]. rewrite T. cbn [width]. split; [reflexivity|]. split; [cbn; rewrite app_nil_r; reflexivity|].
        split; [cbn; lia|]. cbn [length firstn skipn]. split; [constructor; [right; exact T|constructor]|constructor].
Qed.

Lemma last_piece_nodup : forall l cs a c i, NoDup (map a_name l) -> nth_error l i = Some a -> nth_error cs i = Some c ->
  last_piece (a_name a) l cs = Some c.
Proof.
  induction l as [|x l IH]; intros cs a c i ND E1 E2; [destruct i; discriminate|].
  cbn [map] in ND. inversion ND as [|y ys NI ND']; subst. destruct cs as [|c0 cs]; [destruct i; discriminate|].
  destruct i as [|i]; cbn in E1, E2.
  - injection E1 as ->. injection E2 as ->. cbn [last_piece]. rewrite String.eqb_refl.
    assert (N : last_piece (a_name a) l cs = None); [|rewrite N; reflexivity].
    clear - NI. revert cs. induction l as [|x l IH]; intros cs; [reflexivity|]. cbn in NI.
    destruct cs; [reflexivity|]. cbn [last_piece]. rewrite IH by tauto. destruct (String.eqb_spec (a_name a) (a_name x)); [exfalso; intuition congruence|reflexivity].
  - cbn [last_piece]. rewrite (IH cs a c i ND' E1 E2). reflexivity.
Qed.
Lemma last_piece_absent : forall l cs a i, NoDup (map a_name l) -> nth_error l i = Some a -> nth_error cs i = None ->
  last_piece (a_name a) l cs = None.
Proof.
  induction l as [|x l IH]; intros cs a i ND E1 E2; [destruct i; discriminate|].
  cbn [map] in ND. inversion ND as [|y ys NI ND']; subst. destruct cs as [|c0 cs]; [reflexivity|].
  destruct i as [|i]; cbn in E1, E2; [discriminate|]. cbn [last_piece]. rewrite (IH cs a i ND' E1 E2).
  destruct (String.eqb_spec (a_name a) (a_name x)) as [E|]; [|reflexivity]. exfalso. apply NI. rewrite <- E. apply in_map.
  eapply nth_error_In; eassumption.
Qed.

Definition plain_schema (s : schema) : bool := forallb (fun a => match a_compose a with None => true | _ => false end) (s_attrs s).
Lemma registry_flat_plain s : In s registry -> flat_class s = true -> plain_schema s = true.
Proof.
  assert (H : forallb (fun s => negb (flat_class s) || plain_schema s) registry = true) by (vm_compute; reflexivity).
  rewrite forallb_forall in H. intros Hs F. specialize (H s Hs). rewrite F in H. exact H.
Qed.
Lemma registry_positive s a n : In s registry -> In a (s_attrs s) -> width (a_ty a) = Some n -> (0 < n)%nat.
Proof.
  assert (H : forallb (fun s => forallb (fun a => match width (a_ty a) with Some 0%nat => false | _ => true end) (s_attrs s)) registry = true)
    by (vm_compute; reflexivity).
  rewrite forallb_forall in H. intros Hs HA W. specialize (H s Hs). rewrite forallb_forall in H. specialize (H a HA). rewrite W in H.
  destruct n; [discriminate|lia].
Qed.

Lemma reencode s p : In s registry -> flat_class s = true -> NoDup (map a_name (s_attrs s)) -> bytes_ok p ->
  full_payload (s_attrs s) (8 * length p) ->
  exists m, decode (s_cls s :: s_cmd s :: p) = Ok m /\ compose m = Ok (s_cls s :: s_cmd s :: p).
Proof.
  intros Hs FL ND B FP. rewrite <- bits_of_length in FP.
  destruct (full_cut _ _ FL FP) as (cs & E & CC & LL & F2 & FE).
  pose proof (decode_flat s p Hs FL B) as D. rewrite E in D. destruct D as (d & D & ST).
  exists (VObj (CMsg s) d). split; [exact D|].
  assert (FS : fields d (s_attrs s) (concat cs)).
  { pose proof (registry_flat_plain s Hs FL) as PL. unfold plain_schema in PL. rewrite forallb_forall in PL.
    assert (SW : forall a, In a (s_attrs s) -> match sub_width (a_ty a) with Some n => 1 <= n | None => True end).
    { intros a HA. pose proof (registry_positive s a) as RP. destruct (a_ty a) eqn:T; cbn; try exact I; try lia;
        specialize (RP (Z.to_nat n) Hs HA eq_refl); lia. }
    assert (KEY : forall i a, nth_error (s_attrs s) i = Some a -> match nth_error cs i with
        | Some c => exists v, aget (a_name a) d = Some v /\ reads (a_ty a) c v
        | None => aget (a_name a) d = None end).
    { intros i a EA. specialize (ST (a_name a)). destruct (nth_error cs i) as [c|] eqn:EC.
      - rewrite (last_piece_nodup _ _ _ _ _ ND EA EC) in ST. destruct ST as (v & t & G & DT & RD). exists v. split; [exact G|].
        assert (DT' : declared (a_name a) (s_attrs s) = Some (a_ty a)).
        { clear - ND EA. revert i EA. induction (s_attrs s) as [|x l IH]; intros i EA; [destruct i; discriminate|].
          cbn [map] in ND. inversion ND; subst. cbn [declared]. destruct i as [|i]; cbn in EA.
          - injection EA as ->. rewrite String.eqb_refl. reflexivity.
          - destruct (String.eqb_spec (a_name a) (a_name x)) as [X|]; [|eapply IH; eassumption]. exfalso. apply H1. rewrite <- X. apply in_map. eapply nth_error_In; eassumption. }
        congruence.
      - rewrite (last_piece_absent _ _ _ _ ND EA EC) in ST. exact ST. }
    clear - KEY F2 FE PL SW LL Hs. assert (REG : forall a n, In a (s_attrs s) -> width (a_ty a) = Some n -> (0 < n)%nat) by (intros; eapply registry_positive; eassumption).
    revert cs KEY F2 FE LL. induction (s_attrs s) as [|a l IH]; intros cs KEY F2 FE LL.
    - destruct cs; [constructor|cbn in LL; lia].
    - assert (IHl : forall cs', _) by (intros cs'; exact (IH (fun x Hx => PL x (or_intror Hx)) (fun x Hx => SW x (or_intror Hx)) (fun x n Hx => REG x n (or_intror Hx)) cs')).
      assert (CN : a_compose a = None). { specialize (PL a (or_introl eq_refl)). destruct (a_compose a); [discriminate|reflexivity]. }
      destruct cs as [|c cs].
      + cbn [concat]. change (@nil bool) with (@nil bool ++ @nil bool). constructor.
        * apply F_unset; [exact (KEY 0%nat a eq_refl)|]. cbn [skipn length] in FE. inversion FE as [|x y [T|T] FE']; subst; [rewrite T; constructor|].
          specialize (REG a 0%nat (or_introl eq_refl) T). lia.
        * apply (IHl []).
          -- intros i x EX. specialize (KEY (S i) x EX). destruct i; exact KEY.
          -- constructor.
          -- cbn [skipn length] in *. inversion FE; assumption.
          -- cbn. lia.
      + cbn [concat]. cbn [length firstn skipn] in F2, FE. inversion F2 as [|x y z w W F2']; subst. constructor.
        * destruct (KEY 0%nat a eq_refl) as (v & G & RD). eapply F_set; [exact G|exact CN|]. apply reads_field; [exact RD|exact W|apply SW; left; reflexivity].
        * apply (IHl cs); try assumption; [|cbn in LL; lia]. intros i x EX. exact (KEY (S i) x EX). }
  rewrite CC in FS.
  destruct (proj1 compose_all _ _ (E_msg s d _ Hs FS)) as (_ & bs & EC & BB & EB).
  rewrite EC. f_equal. destruct (registry_cls_bytes s Hs).
  apply bits_of_inj; [exact BB| |exact EB]. constructor; [lia|]. constructor; [lia|exact B].
Qed.

(** ** C20 *)
Lemma list_eqb_spec l1 l2 : list_eqb Z.eqb l1 l2 = true <-> l1 = l2.
Proof.
  revert l2; induction l1 as [|x l1 IH]; destruct l2 as [|y l2]; cbn; split; intros H; try discriminate; try reflexivity.
  - apply andb_prop in H as [H1 H2]. apply IH in H2. f_equal; [lia|exact H2].
  - injection H as -> ->. rewrite Z.eqb_refl. apply IH. reflexivity.
Qed.
Lemma eq_encodes m1 m2 b1 b2 : encodes m1 b1 -> encodes m2 b2 ->
  exists r, py_eq m1 m2 = Ok r /\ (r = true <-> b1 = b2).
Proof.
  intros E1 E2. destruct (proj1 compose_all _ _ E1) as ((s1 & d1 & ->) & bs1 & C1 & B1 & EB1).
  destruct (proj1 compose_all _ _ E2) as ((s2 & d2 & ->) & bs2 & C2 & B2 & EB2).
  exists (list_eqb Z.eqb bs1 bs2). split.
  - assert (PE : py_eq (VObj (CMsg s1) d1) (VObj (CMsg s2) d2) =
       do x <- compose (VObj (CMsg s1) d1); do y <- compose (VObj (CMsg s2) d2); Ok (list_eqb Z.eqb x y)) by reflexivity.
    rewrite PE, C1. cbn [bind]. rewrite C2. reflexivity.
  - rewrite list_eqb_spec. split; [congruence|]. intros ->. apply bits_of_inj; congruence.
Qed.

Lemma new_msg_compose s kw b : In s registry -> args s kw (s_attrs s) b ->
  exists m bs, new_msg s kw = Ok m /\ compose m = Ok bs /\ bytes_ok bs /\
    bits_of bs = nbits 8 (s_cls s) ++ nbits 8 (s_cmd s) ++ b.
Proof.
  intros Hs A. destruct (new_msg_encodes s kw b Hs A) as (d & E & EN & _).
  destruct (proj1 compose_all _ _ EN) as (_ & bs & C & B & EB). eauto 8.
Qed.

(** ** counter-examples *)
Definition w_basic : val := VObj (CMsg m_Basic_Set) [("value"%string, VI false 1 200)].
Definition w_sup (z : Z) : adict :=
  [("statusUpdates"%string, VF 0); ("sessionID"%string, VB 6 z); ("command"%string, w_basic)].
Ltac in_registry := unfold registry; repeat (first [left; reflexivity | right]).

Lemma round_trip_fails : ~ (forall m b, encodes m b ->
  exists bs m', compose m = Ok bs /\ decode bs = Ok m' /\ same_val m m').
Proof.
  intros H.
  assert (EB : exists b, encodes w_basic b).
  { eexists. apply (E_msg m_Basic_Set); [in_registry|]. apply F_cons; [|apply F_nil].
    eapply F_set; [reflexivity|reflexivity|]. apply (FB_int false 1). cbn. lia. }
  destruct EB as [b EB].
  assert (ES : exists b, encodes (VObj (CMsg m_Supervision_Get) (w_sup 5)) b).
  { eexists. apply (E_msg m_Supervision_Get); [in_registry|]. unfold w_sup. cbn [s_attrs m_Supervision_Get].
    apply F_cons; [eapply F_set; [reflexivity|reflexivity|apply (FB_flag false)]|].
    apply F_cons; [eapply F_unset; [reflexivity|apply (DB_res 1)]|].
    apply F_cons; [eapply F_set; [reflexivity|reflexivity|apply FB_bits; cbn; lia]|].
    apply F_cons; [eapply F_cmd; [reflexivity|reflexivity|reflexivity|exact EB]|]. apply F_nil. }
  destruct ES as [b' ES]. destruct (H _ _ ES) as (bs & m' & C & D & _).
  vm_compute in C. injection C as <-. vm_compute in D. discriminate.
Qed.

Lemma out_of_range_accepted : ~ (forall s d a v, In s registry -> In a (s_attrs s) -> aget (a_name a) d = Some v ->
  a_compose a = None -> typed (a_ty a) v -> out_of_range v -> exists e, compose (VObj (CMsg s) d) = Err e).
Proof.
  intros H. destruct (H m_Supervision_Get (w_sup 128) (mkA "sessionID" (TBits 6) None None) (VB 6 128)) as [e E];
    [in_registry|cbn; auto|reflexivity|reflexivity|reflexivity|cbn; lia|]. vm_compute in E. discriminate.
Qed.

Lemma reencode_fails : ~ (forall bs m, bytes_ok bs -> decode bs = Ok m -> (exists bs', compose m = Ok bs') -> compose m = Ok bs).
Proof.
  intros H. destruct (decode [35; 2; 64; 95; 7; 0; 0; 32; 1; 200]) as [m|] eqn:E; [|vm_compute in E; discriminate].
  assert (B : bytes_ok [35; 2; 64; 95; 7; 0; 0; 32; 1; 200]) by (repeat constructor; lia).
  specialize (H _ _ B E). vm_compute in E. injection E as <-.
  specialize (H ltac:(eexists; vm_compute; reflexivity)). vm_compute in H. discriminate.
Qed.
