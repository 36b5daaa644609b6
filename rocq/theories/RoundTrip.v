(** decode (compose m) reads like m. *)
From Coq Require Import String ZArith List Bool Lia ZifyBool ZifyNat.
From Verif Require Import Py BitStream Schema Registry Codec SpecBits BitLemmas ReaderLemmas WriterLemmas SpecWire
  SpecDecode SpecRound EncodeProofs DecodeLemmas DecodeProofs.
Import ListNotations.
Open Scope list_scope.
Open Scope Z_scope.
Local Ltac Zify.zify_post_hook ::= Z.div_mod_to_equations.

(** ** more facts about the registry *)
Definition var_ty (t : aty) : bool := match t with TBytes | TNodes | TMsg => true | _ => false end.
Fixpoint shape (seen l : list attr) : bool :=
  match l with
  | [] => true
  | a :: l' =>
      negb (var_ty (a_ty a) && match l' with [] => false | _ => true end)
      && match a_ty a with TInt _ O => false | _ => true end
      && match a_parse a with
         | Some HHeaderExt => match declared "headerExtIncluded" seen with Some _ => true | None => false end
                              && match a_ty a with THdr => true | _ => false end
         | _ => true end
      && match a_ty a with THdr => match a_parse a with Some HHeaderExt => true | _ => false end | _ => true end
      && shape (seen ++ [a]) l'
  end.
Lemma registry_shape s : In s registry -> shape [] (s_attrs s) = true.
Proof.
  assert (H : forallb (fun s => shape [] (s_attrs s)) registry = true) by (vm_compute; reflexivity).
  rewrite forallb_forall in H. apply H.
Qed.

Lemma repeat_false_num n : num (repeat false n) = 0. Proof. apply num_zeros. Qed.

Lemma snum_fits sz z : fits true sz z -> snum (nbits (8 * sz) z) = z.
Proof.
  intros [[-> ->]|[H1 H2]]; [reflexivity|]. apply snum_nbits; [lia|].
  replace (Z.of_nat (8 * sz) - 1) with (8 * Z.of_nat sz - 1) by lia. exact H2.
Qed.

Lemma field_bits_reads t n v b : field_bits t v b -> width t = Some n -> length b = n /\ forall v', reads t b v' -> v' = v.
Proof.
  intros F W. destruct F; cbn in W; try discriminate; injection W as W; subst.
  - split; [apply nbits_length|]. intros v' RD. inversion RD; subst; f_equal.
    + apply num_nbits_small. cbn [fits] in H. replace (Z.of_nat (8 * sz)) with (8 * Z.of_nat sz) by lia. exact H.
    + apply snum_fits. exact H.
  - split; [apply nbits_length|]. intros v' RD. inversion RD; subst. f_equal. destruct (Z.le_gt_cases 0 n0).
    + apply num_nbits_small. rewrite Z2Nat.id; assumption.
    + rewrite Z.pow_neg_r in H by lia. lia.
  - split; [apply nbits_length|]. intros v' RD. inversion RD; subst. f_equal. destruct (Z.le_gt_cases 0 n0).
    + apply num_nbits_small. rewrite Z2Nat.id; assumption.
    + rewrite Z.pow_neg_r in H by lia. lia.
  - split; [apply nbits_length|]. intros v' RD. inversion RD; subst. f_equal. destruct (Z.le_gt_cases 0 n0).
    + apply num_nbits_small. rewrite Z2Nat.id; assumption.
    + rewrite Z.pow_neg_r in H by lia. lia.
  - split; [reflexivity|]. intros v' RD. inversion RD; subst. destruct f; reflexivity.
  - split; [rewrite bits_of_length; lia|]. intros v' RD. inversion RD; subst. f_equal. apply bits_of_inj; assumption.
  - split; [apply nbits_length|]. intros v' RD. inversion RD; subst. f_equal. apply num_nbits_small. exact H.
Qed.

(** ** association members *)
Lemma plain_canonical plain pairs :
  plain_ids (map (fun n => (n, None)) plain ++ map (fun ne : Z * Z => (fst ne, Some (snd ne))) pairs) = plain.
Proof.
  unfold plain_ids. induction plain as [|x p IH]; cbn; [|f_equal; exact IH].
  induction pairs as [|y q IH]; cbn; [reflexivity|exact IH].
Qed.
Lemma endpoint_canonical plain pairs :
  endpoint_ids (map (fun n => (n, None)) plain ++ map (fun ne : Z * Z => (fst ne, Some (snd ne))) pairs)
  = flat_map (fun ne => [fst ne; snd ne]) pairs.
Proof.
  induction plain as [|x p IH]; cbn; [|exact IH].
  induction pairs as [|[n e] q IH]; cbn; [reflexivity|]. rewrite IH. reflexivity.
Qed.
Lemma nodes_pairs_ok pairs : nodes_pairs (flat_map (fun ne : Z * Z => [fst ne; snd ne]) pairs)
  = Ok (map (fun ne => (fst ne, Some (snd ne))) pairs).
Proof. induction pairs as [|[n e] q IH]; cbn [flat_map app nodes_pairs map fst snd]; [reflexivity|]. rewrite IH. reflexivity. Qed.
Lemma nodes_decode_member l : canonical l -> nodes_decode (member_bytes l) = Ok l.
Proof.
  intros (plain & pairs & -> & NZ). unfold member_bytes. rewrite plain_canonical, endpoint_canonical.
  induction plain as [|x p IH]; cbn [map app].
  - destruct pairs as [|[n e] q]; [reflexivity|]. cbn [flat_map app fst snd]. cbn [nodes_decode Z.eqb].
    exact (nodes_pairs_ok ((n, e) :: q)).
  - inversion NZ; subst. cbn [nodes_decode]. destruct (Z.eqb_spec x 0); [contradiction|]. rewrite IH by assumption. reflexivity.
Qed.
Lemma nodes_val_setstate l : nodes_setstate (nodes_val l) = Ok (VNodes l).
Proof.
  unfold nodes_setstate, nodes_val. cbn [iter_val bind].
  assert (H : map_res node_of_val (map (fun ne => VTuple [VInt (fst ne); match snd ne with Some e => VInt e | None => VNone end]) l) = Ok l).
  { induction l as [|[n [e|]] l IH]; cbn [map map_res fst snd]; [reflexivity| |]; cbn [node_of_val to_int is_int bind]; rewrite IH; reflexivity. }
  rewrite H. reflexivity.
Qed.

Lemma remaining_bits r bs : rok r -> aligned r -> bytes_ok bs -> rest r = bits_of bs -> exists r', remaining r = (bs, r').
Proof.
  intros R A B E. destruct (remaining_ok r R A) as (bs' & E1 & B' & E2). destruct (remaining r) as [x r'] eqn:X. cbn in E1. subst x.
  exists r'. f_equal. apply bits_of_inj; [assumption|assumption|congruence].
Qed.

Section Round.
  (** what a field of the original says, with the induction hypothesis for nested commands *)
  Variable P : val -> list bool -> Prop.
  Inductive fview (d : adict) (a : attr) (b : list bool) : Prop :=
  | V_unset : aget (a_name a) d = None -> default_bits (a_ty a) b -> fview d a b
  | V_set v : aget (a_name a) d = Some v -> a_compose a = None -> field_bits (a_ty a) v b -> fview d a b
  | V_hdr l : aget (a_name a) d = Some (VHdr l) -> a_ty a = THdr -> b = [] -> fview d a b
  | V_cmd m : aget (a_name a) d = Some m -> a_ty a = TMsg -> encodes m b -> P m b -> fview d a b
  | V_nocmd m : aget (a_name a) d = Some m -> a_ty a = TMsg -> no_command m -> b = [] -> fview d a b
  | V_cfg h : a_compose a = Some h -> fview d a b.
End Round.

Definition dec_ok (m : val) (b : list bool) : Prop :=
  symmetric m -> forall f r, rok r -> aligned r -> rest r = b -> (length b < 8 * f)%nat ->
  exists m' r', deserialize f r = Ok (m', r') /\ same_val m m'.

Definition inv (d : adict) (seen : list attr) (dd : adict) : Prop :=
  forall n, match declared n seen with
            | None => aget n dd = None
            | Some t => exists v', aget n dd = Some v' /\ same_val (read_attr t n d) v'
                                   /\ (forall k, t = TRes k -> exists z, v' = VB k z)
            end.

Lemma inv_dict_ok d seen dd : inv d seen dd -> dict_ok seen dd.
Proof.
  intros H n. specialize (H n). destruct (declared n seen) as [t|]; [|exact H].
  destruct H as (v & G & _ & K). exists v. split; [exact G|]. intros IR. destruct t; try discriminate.
  destruct (K n0 eq_refl) as [z ->]. eauto.
Qed.

Lemma same_val_VB k z v : same_val (VB k z) v -> v = VB k z.
Proof. intros H. inversion H; subst; try reflexivity. destruct H0 as (? & ? & X & _). discriminate. Qed.
Lemma same_val_VF z v : same_val (VF z) v -> v = VF z.
Proof. intros H. inversion H; subst; try reflexivity. destruct H0 as (? & ? & X & _). discriminate. Qed.

Lemma encodes_len m b : encodes m b -> (16 <= length b)%nat.
Proof. intros H. destruct H. rewrite !app_length, !nbits_length. lia. Qed.

(** an empty field reads as its default *)
Lemma fview_empty d a b : fview dec_ok d a b -> b = [] -> (match a_ty a with TInt _ O => false | _ => true end) = true ->
  (match sub_width (a_ty a) with Some n => 1 <=? n | None => true end) = true ->
  a_compose a = None -> (a_parse a = Some HHeaderExt -> aget (a_name a) d = None \/ aget (a_name a) d = Some (VHdr [])) ->
  (a_ty a = THdr -> a_parse a = Some HHeaderExt) ->
  same_val (read_attr (a_ty a) (a_name a) d) (default_of (a_ty a)).
Proof.
  intros V -> SZ SW NC HP HT. unfold read_attr. destruct V as [G D|v G C F|l G T E|m G T E X|m G T NCM E|h C].
  - rewrite G. apply SV_refl.
  - rewrite G. destruct (width (a_ty a)) as [n|] eqn:W.
    + exfalso. destruct (field_bits_reads _ _ _ _ F W) as [L _]. cbn in L. subst n.
      destruct (a_ty a) as [sg sz| | | | | | | | | | | | | | | | | | |]; cbn in W, SW; try discriminate; injection W as W; try lia; destruct sz; [discriminate|lia].
    + remember (@nil bool) as e eqn:Ee. destruct F as [| | | | |bs B| | |l M]; cbn in W; try discriminate.
      * destruct bs; [apply SV_bytes|]. apply (f_equal (@length bool)) in Ee. rewrite bits_of_length in Ee. cbn in Ee. lia.
      * destruct l as [|[n [e|]] l]; [apply SV_nodes| |]; exfalso; unfold member_bytes, plain_ids in Ee;
          apply (f_equal (@length bool)) in Ee; rewrite bits_of_length, app_length in Ee; cbn in Ee; lia.
  - rewrite G, T. destruct (HP (HT T)) as [X|X]; rewrite G in X; [discriminate|]. injection X as ->. cbn. apply SV_hdr.
  - exfalso. apply encodes_len in E. cbn in E. lia.
  - rewrite G, T. cbn. apply SV_nocmd. exact NCM.
  - congruence.
Qed.

Lemma same_val_default_unset t n d : aget n d = None -> read_attr t n d = default_of t.
Proof. intros H. unfold read_attr. rewrite H. reflexivity. Qed.

Lemma al_sub l o a : al (a :: l) o = true -> (match sub_width (a_ty a) with Some n => 1 <=? n | None => true end) = true.
Proof. cbn [al]. destruct (sub_width (a_ty a)); intros H; [|reflexivity]. lia. Qed.

Definition sym_attrs (d : adict) (l : list attr) : Prop :=
  (forall a, In a l -> a_compose a = None /\ (a_parse a = None \/
        (a_parse a = Some HHeaderExt /\ aget "headerExtIncluded" d = Some (VF 0) /\
         (aget (a_name a) d = None \/ aget (a_name a) d = Some (VHdr []))))) /\
    (forall a l', In a l -> a_ty a = TNodes -> aget (a_name a) d = Some (VNodes l') -> canonical l') /\
    (forall a m, In a l -> a_ty a = TMsg -> aget (a_name a) d = Some m -> symmetric m \/ no_command m).

Definition parse_ok (d : adict) (l : list attr) (b : list bool) : Prop :=
  forall all seen dd r f, all = seen ++ l -> dup_ok seen l = true -> shape seen l = true -> sym_attrs d l ->
  inv d seen dd -> al l (r_pos r mod 8) = true -> rok r -> rest r = b -> (length b < 8 * f)%nat ->
  exists dd' r', parse_attrs (hk2 (deserialize f)) (ds2 (deserialize f)) all l dd r = Ok (dd', r') /\
    forall n t, declared n all = Some t -> same_val (read_attr t n d) (read_attr t n dd').

Lemma inv_read d seen dd n t : inv d seen dd -> declared n seen = Some t -> same_val (read_attr t n d) (read_attr t n dd).
Proof. intros I D. specialize (I n). rewrite D in I. destruct I as (v & G & S & _). unfold read_attr at 2. rewrite G. exact S. Qed.

Lemma declared_in n l t : declared n l = Some t -> exists a, In a l /\ a_name a = n /\ a_ty a = t.
Proof.
  induction l as [|x l IH]; cbn [declared]; intros D; [discriminate|].
  destruct (String.eqb_spec n (a_name x)) as [->|]; [injection D as <-; exists x; cbn; auto|].
  destruct (IH D) as (a & ? & ? & ?). exists a. cbn. auto.
Qed.
Lemma shape_in a l : forall seen, shape seen l = true -> In a l -> exists seen' l', shape seen' (a :: l') = true.
Proof.
  induction l as [|x l IH]; intros seen SH H; [contradiction|]. destruct H as [->|H]; [eauto|].
  cbn [shape] in SH. apply andb_prop in SH as [_ SH]. eapply IH; eassumption.
Qed.
Lemma al_in a l : forall o, al l o = true -> In a l -> exists o' l', al (a :: l') o' = true.
Proof.
  induction l as [|x l IH]; intros o A H; [contradiction|]. destruct H as [->|H]; [eauto|].
  cbn [al] in A. destruct (sub_width (a_ty x)); apply andb_prop in A as [_ A]; eapply IH; eassumption.
Qed.

(** reading stops at the end of the payload *)
Lemma stop_ok d l all seen dd o : Forall (fun a => fview dec_ok d a []) l ->
  all = seen ++ l -> shape seen l = true -> sym_attrs d l -> inv d seen dd -> al l o = true ->
  forall n t, declared n all = Some t -> same_val (read_attr t n d) (read_attr t n dd).
Proof.
  intros FV EA SH SY I AL n t D. subst all. rewrite declared_app in D.
  destruct (declared n seen) as [t'|] eqn:DS; [injection D as <-; eapply inv_read; eassumption|].
  pose proof (I n) as In0. rewrite DS in In0. rewrite (same_val_default_unset _ _ dd In0).
  destruct (declared_in _ _ _ D) as (a & HI & <- & <-).
  rewrite Forall_forall in FV. specialize (FV a HI).
  destruct SY as (S1 & S2 & S3). destruct (S1 a HI) as [NC PH].
  destruct (shape_in _ _ _ SH HI) as (sn & l1 & SH1). destruct (al_in _ _ _ AL HI) as (o2 & l2 & AL2). cbn [shape] in SH1.
  apply andb_prop in SH1 as [SH1 _]. apply andb_prop in SH1 as [SH1 SH2]. apply andb_prop in SH1 as [SH1 _]. apply andb_prop in SH1 as [_ SH1].
  apply (fview_empty d a [] FV eq_refl); try assumption.
  - eapply al_sub; eassumption.
  - intros X. destruct PH as [Y|(_ & _ & Y)]; [congruence|exact Y].
  - intros T. rewrite T in SH2. destruct (a_parse a) as [[]|]; try reflexivity; discriminate.
Qed.

Lemma fview_hdr d a b : fview dec_ok d a b -> a_ty a = THdr -> a_compose a = None -> b = [].
Proof.
  intros V T C. destruct V as [G D|v G C' F|l G T' E|m G T' E X|m G T' NCM E|h C']; try assumption; try congruence.
  - rewrite T in D. inversion D. reflexivity.
  - rewrite T in F. inversion F.
Qed.

Lemma hk_hdr f dd r : aget "headerExtIncluded" dd = Some (VF 0) -> hk2 (deserialize f) HHeaderExt dd r = Ok (VDict [], r).
Proof. intros G. cbn [hk2]. rewrite G. reflexivity. Qed.

Lemma sym_tail d a l : sym_attrs d (a :: l) -> sym_attrs d l.
Proof. intros (S1 & S2 & S3). repeat split; intros; [apply S1|apply S1|eapply S2|eapply S3]; try right; eauto. Qed.

Lemma dup_tail seen a l : dup_ok seen (a :: l) = true -> dup_ok (seen ++ [a]) l = true.
Proof. cbn [dup_ok]. destruct (declared (a_name a) seen); [|auto]. intros H. apply andb_prop in H as [_ H]. exact H. Qed.
Lemma shape_tail seen a l : shape seen (a :: l) = true -> shape (seen ++ [a]) l = true.
Proof. cbn [shape]. intros H. apply andb_prop in H as [_ H]. exact H. Qed.

(** one field is read and stored, giving a value that means the same as the original one *)
Lemma inv_step d seen a l all dd v0 v :
  all = seen ++ a :: l -> dup_ok seen (a :: l) = true -> inv d seen dd ->
  setattr_coerce (a_ty a) v0 = Ok v -> same_val (read_attr (a_ty a) (a_name a) d) v ->
  (forall k, a_ty a = TRes k -> exists z, v0 = VInt z /\ v = VB k z) ->
  exists v', setattr all (a_name a) v0 dd = Ok (aset (a_name a) v' dd, Some v') /\ inv d (seen ++ [a]) (aset (a_name a) v' dd).
Proof.
  intros EA DU I C SV RES.
  destruct (setattr_step all seen a l v0 v dd EA DU (inv_dict_ok _ _ _ I) C) as (v' & E & DO & F1 & F2).
  { intros k T. destruct (RES k T) as (z & Hz & _). eauto. }
  exists v'. split; [exact E|]. intros n. rewrite declared_app. cbn [declared]. specialize (I n).
  destruct (declared n seen) as [t|] eqn:DS.
  - destruct (String.eqb_spec n (a_name a)) as [->|NE].
    + destruct (F2 ltac:(congruence)) as (k & k' & z & DA & T & -> & ->). rewrite EA, declared_app, DS in DA. injection DA as ->.
      destruct I as (vo & G & S & K). exists (VB k z). split; [apply aget_aset_same|]. split; [|intros k0 X; injection X as ->; eauto].
      destruct (RES _ T) as (z' & Hz & Hv). injection Hz as <-. subst v. destruct (K k eq_refl) as (zo & ->).
      assert (RR : read_attr (TRes k) (a_name a) d = read_attr (a_ty a) (a_name a) d) by (unfold read_attr; rewrite T; reflexivity).
      rewrite RR in *. clear RR. remember (read_attr (a_ty a) (a_name a) d) as rv eqn:Erv. clear Erv. inversion SV; subst.
      * apply same_val_VB in S. injection S as -> ->. apply SV_refl.
      * apply SV_reserved.
    + rewrite aget_aset_other by assumption. exact I.
  - destruct (String.eqb_spec n (a_name a)) as [->|NE].
    + exists v'. split; [apply aget_aset_same|]. rewrite (F1 DS). split; [exact SV|]. intros k T. destruct (RES k T) as (z & _ & ->). eauto.
    + rewrite aget_aset_other by assumption. exact I.
Qed.

Lemma fview_fixed d a n b : fview dec_ok d a b -> width (a_ty a) = Some n -> a_compose a = None ->
  length b = n /\ forall v, reads (a_ty a) b v -> same_val (read_attr (a_ty a) (a_name a) d) v.
Proof.
  intros V W NC. unfold read_attr. destruct V as [G D|v G C F|l G T E|m G T E X|m G T NCM E|h C];
    try (rewrite T in W; discriminate); try congruence.
  - rewrite G. destruct D; cbn in W; try discriminate. injection W as <-. split; [apply repeat_length|].
    intros v RD. inversion RD; subst. rewrite num_zeros. apply SV_reserved.
  - rewrite G. destruct (field_bits_reads _ _ _ _ F W) as [L RD]. split; [exact L|]. intros v' H. rewrite (RD v' H). apply SV_refl.
Qed.

Lemma aligned_whole r l a : al (a :: l) (r_pos r mod 8) = true -> fits_here (a_ty a) r.
Proof.
  cbn [al]. unfold fits_here, aligned. destruct (sub_width (a_ty a)); intros H; [lia|]. lia.
Qed.

Lemma al_next l a r n : al (a :: l) (r_pos r mod 8) = true -> width (a_ty a) = Some n ->
  al l ((r_pos r + Z.of_nat n) mod 8) = true.
Proof.
  cbn [al]. intros A W. destruct (sub_width (a_ty a)) as [k|] eqn:SW.
  - apply andb_prop in A as [A1 A2]. rewrite (width_sub _ _ _ W SW) by lia.
    replace ((r_pos r + k) mod 8) with ((r_pos r mod 8 + k) mod 8) by lia. exact A2.
  - pose proof (width_whole _ _ W SW). apply andb_prop in A as [A1 A2]. replace ((r_pos r + Z.of_nat n) mod 8) with 0 by lia. exact A2.
Qed.

Lemma fields_round d a l b bs :
  fview dec_ok d a b -> fields d l bs -> parse_ok d l bs -> (bs = [] -> Forall (fun a => fview dec_ok d a []) l) ->
  parse_ok d (a :: l) (b ++ bs).
Proof.
  intros FV FL IH EMP all seen dd r f EA DU SH SY I AL R E FU.
  assert (SYa := SY). destruct SYa as (S1 & S2 & S3). destruct (S1 a (or_introl eq_refl)) as [NC PH].
  assert (EA' : all = (seen ++ [a]) ++ l) by (rewrite EA, <- app_assoc; reflexivity).
  destruct (rest r) as [|x0 xs0] eqn:RE.
  { symmetry in E. apply app_eq_nil in E as [-> ->].
    exists dd, r. split.
    - cbn [parse_attrs]. assert (bytesLeft r = 0) as -> by (apply rest_nil_iff; assumption). reflexivity.
    - apply (stop_ok d (a :: l) all seen dd (r_pos r mod 8)); try assumption. constructor; [exact FV|]. apply EMP. reflexivity. }
  assert (NE : rest r <> []) by congruence. rewrite <- RE in *. clear RE x0 xs0.
  cbn [parse_attrs]. destruct (Z.eqb_spec (bytesLeft r) 0) as [B0|B0]. { apply rest_nil_iff in B0; [contradiction|exact R]. }
  pose proof (aligned_whole _ _ _ AL) as FH.
  destruct PH as [PN|(PH & HF & HV)].
  - (* no parse hook *)
    rewrite PN.
    destruct (width (a_ty a)) as [n|] eqn:W.
    + (* fixed size *)
      destruct (fview_fixed _ _ _ _ FV W NC) as [L RD].
      destruct (ds0_field (a_ty a) n r b bs W R FH E L) as (v0 & r1 & E1 & R1 & RE1 & P1 & (v & C1 & RD1) & RES1).
      assert (DS : ds2 (deserialize f) (a_ty a) = ds0 (a_ty a)) by (destruct (a_ty a); cbn in W; try discriminate; reflexivity).
      rewrite DS, E1. cbn [bind].
      destruct (inv_step d seen a l all dd v0 v EA DU I C1 (RD _ RD1)) as (v' & E2 & I2).
      { intros k T. specialize (RES1 k T). exists (num b). split; [exact RES1|]. rewrite T in RD1. inversion RD1. reflexivity. }
      rewrite E2. cbn [bind].
      apply (IH all (seen ++ [a]) _ r1 f EA' (dup_tail _ _ _ DU) (shape_tail _ _ _ SH) (sym_tail _ _ _ SY) I2); try assumption.
      * rewrite P1. apply (al_next _ _ _ _ AL W).
      * rewrite app_length in FU. lia.
    + (* variable size: the last attribute *)
      assert (FA : aligned r).
      { unfold fits_here in FH. destruct (a_ty a); cbn in W, FH; try discriminate; exact FH. }
      assert (NR : forall k, a_ty a <> TRes k) by (intros k X; rewrite X in W; discriminate).
      assert (LL : var_ty (a_ty a) = true -> l = []).
      { intros VT. cbn [shape] in SH. rewrite VT in SH. destruct l; [reflexivity|discriminate]. }
      assert (FINISH : forall v0 v r', var_ty (a_ty a) = true -> ds2 (deserialize f) (a_ty a) r = Ok (v0, r') ->
         setattr_coerce (a_ty a) v0 = Ok v -> same_val (read_attr (a_ty a) (a_name a) d) v ->
         exists dd' r'', (do (v, r') <- ds2 (deserialize f) (a_ty a) r; do (d', _) <- setattr all (a_name a) v dd;
               parse_attrs (hk2 (deserialize f)) (ds2 (deserialize f)) all l d' r') = Ok (dd', r'') /\
            forall n t, declared n all = Some t -> same_val (read_attr t n d) (read_attr t n dd')).
      { intros v0 v r' VT D1 C1 SV. rewrite D1. cbn [bind].
        destruct (inv_step d seen a l all dd v0 v EA DU I C1 SV) as (v' & E2 & I2).
        { intros k T. destruct (NR k T). }
        rewrite E2. cbn [bind]. rewrite (LL VT) in *. cbn [parse_attrs]. eexists _, _. split; [reflexivity|].
        rewrite app_nil_r in EA'. intros n t D. rewrite EA' in D. eapply inv_read; eassumption. }
      assert (BSN : var_ty (a_ty a) = true -> bs = []).
      { intros VT. rewrite (LL VT) in FL. inversion FL. reflexivity. }
      assert (SH' := SH). cbn [shape] in SH'. apply andb_prop in SH' as [SH' _]. apply andb_prop in SH' as [_ SH'].
      destruct FV as [G D|v G C F|lh G T EH|m G T EN X|m G T NCM EN|h C].
      * (* unset: nothing was written *)
        inversion D as [k TY EB|TY EB|TY EB|TY EB]; rewrite <- TY in *; cbn in W; try discriminate; subst b;
          try (rewrite (BSN eq_refl) in E; contradiction).
        rewrite PN in SH'. discriminate.
      * remember (a_ty a) as ty eqn:TY. destruct F as [| | | | |bs0 B| | |l0 M]; cbn in W; try discriminate;
          rewrite (BSN eq_refl), app_nil_r in E.
        -- destruct (remaining_bits r bs0 R FA B E) as [r' RM].
           apply (FINISH (VPBytes bs0) (VBytes bs0) r'); try reflexivity.
           ++ cbn [ds2 ds0]. rewrite RM. reflexivity.
           ++ unfold read_attr. rewrite G. apply SV_refl.
        -- destruct (member_bytes_ok l0 M) as [MB1 MB2].
           assert (MB : bytes_ok (member_bytes l0)).
           { unfold member_bytes. apply bytes_ok_app. split; [exact MB1|]. destruct (endpoint_ids l0); [constructor|]. constructor; [lia|exact MB2]. }
           destruct (remaining_bits r _ R FA MB E) as [r' RM].
           apply (FINISH (nodes_val l0) (VNodes l0) r'); try reflexivity.
           ++ cbn [ds2 ds0]. rewrite RM. rewrite nodes_decode_member; [reflexivity|].
              apply (S2 a l0 (or_introl eq_refl)); [congruence|exact G].
           ++ apply nodes_val_setstate.
           ++ unfold read_attr. rewrite G. apply SV_refl.
      * rewrite T in SH'. rewrite PN in SH'. discriminate.
      * rewrite T in *. rewrite (BSN eq_refl), app_nil_r in *.
        destruct (S3 a m (or_introl eq_refl) T G) as [SM|(c & dm & -> & HC)]; [|inversion EN; subst; destruct HC as [?|[? ?]]; discriminate].
        destruct (X SM f r R FA E FU) as (m' & r' & DE & SV).
        apply (FINISH m' m' r'); try reflexivity.
        -- exact DE.
        -- destruct EN as [s d0 b Hs _]. inversion SV; subst; try reflexivity. destruct H as (? & ? & HQ & [HR|[? HR]]); injection HQ as <- <-; discriminate.
        -- unfold read_attr. rewrite G. exact SV.
      * rewrite T in *. subst b. rewrite (BSN eq_refl) in E. contradiction.
      * congruence.
  - (* header extension of a packet that announces none *)
    rewrite PH.
    assert (TH : a_ty a = THdr).
    { cbn [shape] in SH. rewrite PH in SH. destruct (a_ty a); try reflexivity;
      apply andb_prop in SH as [SH _]; apply andb_prop in SH as [SH _]; apply andb_prop in SH as [_ SH]; rewrite andb_false_r in SH; discriminate. }
    assert (HD : aget "headerExtIncluded" dd = Some (VF 0)).
    { cbn [shape] in SH. rewrite PH in SH. destruct (declared "headerExtIncluded" seen) as [t|] eqn:DS.
      - pose proof (I "headerExtIncluded"%string) as I0. rewrite DS in I0. destruct I0 as (v' & G & S & _).
        unfold read_attr in S. rewrite HF in S. apply same_val_VF in S. congruence.
      - apply andb_prop in SH as [SH _]; apply andb_prop in SH as [SH _]; apply andb_prop in SH as [_ SH]; discriminate. }
    rewrite (hk_hdr f dd r HD). cbn [bind].
    pose proof (fview_hdr _ _ _ FV TH NC) as ->. cbn [app] in *.
    destruct (inv_step d seen a l all dd (VDict []) (VHdr []) EA DU I) as (v' & E2 & I2).
    { rewrite TH. reflexivity. }
    { rewrite TH. unfold read_attr. destruct HV as [HV|HV]; rewrite HV; [apply SV_hdr'|apply SV_refl]. }
    { intros k T. congruence. }
    rewrite E2. cbn [bind].
    apply (IH all (seen ++ [a]) _ r f EA' (dup_tail _ _ _ DU) (shape_tail _ _ _ SH) (sym_tail _ _ _ SY) I2); try assumption.
    cbn [al] in AL. rewrite TH in AL. cbn [sub_width] in AL. apply andb_prop in AL as [A1 A2]. replace (r_pos r mod 8) with 0 by lia. exact A2.
Qed.

Lemma decode_all :
  (forall m b, encodes m b -> dec_ok m b) /\
  (forall d l b, fields d l b -> fields d l b /\ parse_ok d l b /\ (b = [] -> Forall (fun a => fview dec_ok d a []) l)) /\
  (forall d a b, field d a b -> fview dec_ok d a b).
Proof.
  apply encodes_mutind.
  - intros s d b Hs FL (_ & IH & _) SY f r R A E FU.
    destruct f as [|f]; [cbn in FU; lia|].
    destruct (registry_cls_bytes s Hs) as [C1 C2].
    destruct (deserialize_head f r (s_cls s) (s_cmd s) b R A E C1 C2) as (r2 & R2 & A2 & E2 & P2 & V2 & D).
    rewrite D, <- hid_bytes, lookup_hid by exact Hs. rewrite !app_length, !nbits_length in FU.
    inversion SY as [s' d' S1 S2 S3]; subst.
    destruct (IH (s_attrs s) [] [] r2 f eq_refl (registry_dup_ok s Hs) (registry_shape s Hs) (conj S1 (conj S2 S3)))
      as (dd & r3 & E3 & SV); try assumption.
    { intros n. reflexivity. }
    { rewrite (aligned_of _ A2). apply registry_aligned. exact Hs. }
    { reflexivity. }
    { lia. }
    rewrite E3. cbn [bind]. eexists _, _. split; [reflexivity|]. apply SV_msg. exact SV.
  - intros d. split; [constructor|]. split; [|intros _; constructor].
    intros all seen dd r f EA DU SH SY I AL R E FU. exists dd, r. split; [reflexivity|].
    rewrite app_nil_r in EA. subst. intros n t D. eapply inv_read; eassumption.
  - intros d a l b bs Fa IHa Fl (FL & IHl & EM). split; [constructor; assumption|]. split.
    + apply fields_round; assumption.
    + intros X. apply app_eq_nil in X as [-> ->]. constructor; [exact IHa|apply EM; reflexivity].
  - intros. eapply V_unset; eassumption.
  - intros. eapply V_set; eassumption.
  - intros. eapply V_hdr; try eassumption. reflexivity.
  - intros. eapply V_cmd; eassumption.
  - intros d a c m G C T H. eapply V_nocmd; try eassumption; [|reflexivity]. exists c, m. auto.
  - intros. eapply V_cfg. eassumption.
Qed.

Theorem round_trip m b : encodes m b -> symmetric m ->
  exists bs m', compose m = Ok bs /\ decode bs = Ok m' /\ same_val m m'.
Proof.
  intros E SY. destruct (proj1 compose_all m b E) as (_ & bs & EC & B & EB).
  destruct (new_reader_ok bs B) as (R & A & ER).
  destruct (proj1 decode_all m b E SY (S (length bs)) (new_reader bs) R A) as (m' & r' & D & SV).
  { congruence. } { rewrite <- EB, bits_of_length. lia. }
  exists bs, m'. split; [exact EC|]. split; [|exact SV]. unfold decode. rewrite D. reflexivity.
Qed.
