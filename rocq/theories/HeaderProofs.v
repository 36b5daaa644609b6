(** C09, C10: Z/IP header extensions. *)
From Coq Require Import String ZArith List Bool Lia ZifyBool ZifyNat.
From Verif Require Import Py BitStream Schema Registry Codec SpecBits BitLemmas ReaderLemmas SpecDecode SpecTotal
  EncodeProofs DecodeLemmas DecodeProofs CodecProofs ParseRel TotalProofs ByteReader SpecFields.
Import ListNotations.
Open Scope list_scope.
Open Scope string_scope.
Open Scope list_scope.
Open Scope Z_scope.
Local Ltac Zify.zify_post_hook ::= Z.div_mod_to_equations.

Lemma new_at bs : new_reader bs = at_ [] bs. Proof. reflexivity. Qed.

(** one step of the attribute loop *)
Lemma parse_step hk ds all a todo d r v q d' u : bytesLeft r <> 0 ->
  match a_parse a with Some h => hk h d r | None => ds (a_ty a) r end = Ok (v, q) ->
  setattr all (a_name a) v d = Ok (d', u) ->
  parse_attrs hk ds all (a :: todo) d r = parse_attrs hk ds all todo d' q.
Proof.
  intros N E S. cbn [parse_attrs]. destruct (Z.eqb_spec (bytesLeft r) 0); [contradiction|]. rewrite E. cbn [bind]. rewrite S. reflexivity.
Qed.
Lemma parse_stop hk ds all todo d r : bytesLeft r = 0 -> parse_attrs hk ds all todo d r = Ok (d, r).
Proof. intros N. destruct todo; [reflexivity|]. cbn [parse_attrs]. rewrite N. reflexivity. Qed.
Lemma at_ds_u8 q b bs : ds0 (TInt false 1) (at_ q (b :: bs)) = Ok (VI false 1 b, at_ (q ++ [b]) bs).
Proof.
  cbn [ds0]. change (b :: bs) with ([b] ++ bs). rewrite (at_value q [b] bs) by reflexivity. reflexivity.
Qed.
Lemma zpos {A} (x : A) l : zlen (x :: l) <> 0. Proof. rewrite zlen_cons. pose proof (zlen_nonneg l). lia. Qed.

Lemma ime_ok e : element_ok e -> exists v, ime_load (element_type e) (element_data e) = Ok v /\ element_reads e v.
Proof.
  intros H. destruct e as [z|z|a b c d s|z|z|ty bs]; cbn [element_type element_data element_reads element_ok] in *; unfold ime_load.
  1, 4, 5: rewrite new_at; change [z] with ([z] ++ []); rewrite (at_value [] [z] [] 1) by reflexivity; cbn [bind];
    eexists; split; [reflexivity|]; f_equal; cbn; lia.
  - rewrite new_at. change [z / 256; z mod 256] with ([z / 256; z mod 256] ++ []). rewrite (at_value [] _ [] 2) by reflexivity. cbn [bind].
    eexists; split; [reflexivity|]. f_equal. unfold from_bytes_u. cbn [fold_left]. lia.
  - rewrite new_at. unfold parse_sub.
    assert (E : parse_attrs hk0 ds0 (class_attrs CRoute) (class_attrs CRoute) [] (at_ [] [a; b; c; d; s]) =
      Ok ([("repeater1", VI false 1 a); ("repeater2", VI false 1 b); ("repeater3", VI false 1 c); ("repeater4", VI false 1 d); ("speed", VI false 1 s)],
          at_ [a; b; c; d; s] [])).
    { cbn [class_attrs]. unfold sub_Zip_IMELastWorkingRoute at 2.
      do 5 (erewrite parse_step; [|rewrite at_left; apply zpos|apply at_ds_u8|reflexivity]). reflexivity. }
    rewrite E. cbn [bind]. eexists. split; [reflexivity|]. eexists. split; [reflexivity|]. repeat split; reflexivity.
  - destruct H as ([-> | [-> | [-> | ->]]] & _); rewrite new_at; eexists; (split; [rewrite at_remaining; reflexivity|reflexivity]).
Qed.

(** dictionaries *)
Lemma dget_dset_same {V} k (v : V) d : dget Z.eqb k (dset Z.eqb k v d) = Some v.
Proof.
  induction d as [|[k' v'] d IH]; cbn [dset dget]; [rewrite Z.eqb_refl; reflexivity|].
  destruct (Z.eqb_spec k k') as [->|N]; cbn [dget]; [rewrite Z.eqb_refl; reflexivity|]. destruct (Z.eqb_spec k k'); [contradiction|exact IH].
Qed.
Lemma dget_dset_other {V} k k' (v : V) d : k <> k' -> dget Z.eqb k (dset Z.eqb k' v d) = dget Z.eqb k d.
Proof.
  intros N. induction d as [|[k2 v2] d IH]; cbn [dset dget]; [destruct (Z.eqb_spec k k'); [contradiction|reflexivity]|].
  destruct (Z.eqb_spec k' k2) as [->|N2]; cbn [dget].
  - destruct (Z.eqb_spec k k2); [contradiction|reflexivity].
  - destruct (k =? k2); [reflexivity|exact IH].
Qed.
Lemma dset_keys {V} k (v : V) d : NoDup (map fst d) -> NoDup (map fst (dset Z.eqb k v d)) /\
  forall x, In x (map fst (dset Z.eqb k v d)) -> x = k \/ In x (map fst d).
Proof.
  induction d as [|[k' v'] d IH]; cbn [dset map fst]; intros H.
  - split; [constructor; [intros []|constructor]|]. intros x [<-|[]]. auto.
  - inversion H as [|? ? N1 N2]; subst. destruct (Z.eqb_spec k k') as [->|N]; cbn [map fst].
    + split; [constructor; assumption|]. intros x [<-|I]; auto. right. right. exact I.
    + destruct (IH N2) as [I1 I2]. split.
      * constructor; [|exact I1]. intros I. destruct (I2 _ I) as [->|I']; [contradiction N; reflexivity|contradiction].
      * intros x [<-|I]; [right; left; reflexivity|]. destruct (I2 _ I); auto. right. right. assumption.
Qed.

Lemma element_len e : 2 <= zlen (element_bytes e) /\ (length (element_bytes e) >= 2)%nat.
Proof. unfold element_bytes. rewrite !zlen_cons. pose proof (zlen_nonneg (element_data e)). cbn [length]. lia. Qed.
Lemma element_short e : element_ok e -> zlen (element_data e) < 256 /\ bytes_ok (element_data e) /\ 0 <= element_type e < 9.
Proof.
  unfold bytes_ok, byte. destruct e; cbn [element_ok element_data element_type]; unfold byte; intros H.
  all: try (split; [reflexivity|]; split; [|lia]; repeat constructor; lia).
  all: destruct H as (T & B & L); split; [exact L|]; split; [exact B|lia].
Qed.

Lemma maint_reads : forall els q acc fuel, Forall element_ok els -> (length (flat_map element_bytes els) <= fuel)%nat ->
  exists l, maint_loop fuel acc (at_ q (flat_map element_bytes els)) = Ok l /\
    forall k, match latest element_type k els with
              | Some e => exists x, dget Z.eqb k l = Some x /\ element_reads e x
              | None => dget Z.eqb k l = dget Z.eqb k acc
              end.
Proof.
  induction els as [|e els IH]; intros q acc fuel F L; cbn [flat_map].
  - exists acc. split; [|reflexivity]. destruct fuel; cbn [maint_loop]; rewrite at_left; reflexivity.
  - inversion F as [|? ? OK F']; subst. cbn [flat_map] in L. rewrite app_length in L. destruct (element_len e) as [_ EL].
    destruct fuel as [|fuel]; [lia|]. cbn [maint_loop]. rewrite at_left.
    change (element_bytes e ++ flat_map element_bytes els) with (element_type e :: zlen (element_data e) :: element_data e ++ flat_map element_bytes els). destruct (Z.eqb_spec (zlen (element_type e :: zlen (element_data e) :: element_data e ++ flat_map element_bytes els)) 0) as [X|_]; [elim (zpos _ _ X)|].
    destruct (element_short e OK) as (SL & SB & ST).
    rewrite at_byte. cbn [bind].
    assert (ime_type_ok (element_type e) = true) as -> by (unfold ime_type_ok; lia). cbn [negb].
    rewrite at_byte. cbn [bind]. rewrite (at_value _ (element_data e) _ _ eq_refl). cbn [bind].
    destruct (ime_ok e OK) as (v & -> & RV). cbn [bind].
    destruct (IH (((q ++ [element_type e]) ++ [zlen (element_data e)]) ++ element_data e) (dset Z.eqb (element_type e) v acc) fuel F' ltac:(lia)) as (l & -> & G).
    exists l. split; [reflexivity|]. intros k. specialize (G k). cbn [latest]. destruct (latest element_type k els) as [e'|]; [exact G|].
    destruct (Z.eqb_spec (element_type e) k) as [<-|N].
    + rewrite dget_dset_same in G. eauto.
    + rewrite dget_dset_other in G by congruence. exact G.
Qed.

Definition opt_is (o : zoption) (v : val) : Prop := option_reads o v /\ isinst v TOptData = true.

Lemma option_data_ok o : option_ok o -> bytes_ok (option_data o) /\ zlen (option_data o) < 256.
Proof.
  unfold bytes_ok. destruct o as [c z|c els|c s r f]; cbn [option_ok option_data]; intros H.
  - split; [|reflexivity]. repeat (constructor; [lia|]). constructor.
  - destruct H as [H L]. split; [|exact L]. clear L. induction H as [|e els OK H IH]; cbn [flat_map]; [constructor|].
    apply Forall_app. split; [|exact IH]. destruct (element_short e OK) as (SL & SB & ST). unfold element_bytes.
    constructor; [lia|]. constructor; [pose proof (zlen_nonneg (element_data e)); lia|exact SB].
  - unfold byte in H. split; [|reflexivity]. repeat (constructor; [destruct f; lia|]). constructor.
Qed.

Lemma optionData_reads o q tl d : option_ok o -> aget "optionType" d = Some (VU 7 (option_type o)) ->
  exists v, parse_optionData d (at_ q (zlen (option_data o) :: option_data o ++ tl)) =
            Ok (v, at_ ((q ++ [zlen (option_data o)]) ++ option_data o) tl) /\ opt_is o v.
Proof.
  intros OK G. unfold parse_optionData. rewrite at_byte. cbn [bind]. rewrite (at_value _ (option_data o) _ _ eq_refl). cbn [bind].
  rewrite G. cbn [to_int bind]. destruct o as [c z|c els|c s r f]; cbn [option_type option_ok option_reads] in *; rewrite new_at.
  - unfold option_data. match goal with |- context [at_ [] ?x] => change x with (x ++ []) end. rewrite (at_value [] _ [] 3) by reflexivity. cbn [bind].
    eexists. split; [reflexivity|]. split; [|reflexivity]. unfold option_reads. f_equal. rewrite from_bytes_s_snum.
    + transitivity (snum (nbits 24 z)); [f_equal|apply snum_nbits; lia].
      replace [(z / 65536) mod 256; (z / 256) mod 256; z mod 256] with (be_bytes 3 z).
      * apply be_bytes_bits.
      * cbn [be_bytes app]. rewrite Z.div_div by lia. reflexivity.
    + repeat (constructor; [lia|]). constructor.
  - destruct OK as [F L]. destruct (maint_reads els [] [] (length (option_data (OReport c els))) F (Nat.le_refl _)) as (l & E & G2).
    cbn [option_data] in E |- *. rewrite E. cbn [bind]. eexists. split; [reflexivity|]. split; [|reflexivity]. exists l. split; [reflexivity|].
    intros k. specialize (G2 k). destruct (latest element_type k els); exact G2.
  - unfold option_data, parse_sub. cbn [class_attrs]. unfold sub_Zip_ZIPPacketOptionEncapsulationFormatInfo at 2. unfold byte in OK.
    assert (E1 : forall q b bs, 0 <= b < 256 -> ds0 (TBits 8) (at_ q (b :: bs)) = Ok (VInt b, at_ (q ++ [b]) bs)).
    { intros q0 b bs HB. cbn [ds0]. rewrite <- mid_0, mid_bits by lia. cbn [bind]. rewrite mid_8. do 3 f_equal.
      change (2 ^ (8 - 0 - 8)) with 1. change (2 ^ 8) with 256. lia. }
    erewrite parse_step; [|rewrite at_left; apply zpos|apply E1; lia|reflexivity].
    set (b := 2 * r + (if f then 1 else 0)). assert (HB : 0 <= b < 256) by (unfold b; destruct f; lia).
    erewrite parse_step; [|rewrite at_left; apply zpos|cbn [a_parse a_ty ds0]; rewrite <- mid_0, mid_bits by lia; reflexivity|reflexivity].
    erewrite parse_step; [|rewrite mid_left by lia; unfold zlen; cbn; lia|cbn [a_parse a_ty ds0]; rewrite mid_bits by lia; reflexivity|reflexivity].
    cbn [parse_attrs bind]. eexists. split; [reflexivity|]. split; [|reflexivity]. eexists. split; [reflexivity|]. split; [reflexivity|].
    rewrite aget_aset_same. change (2 ^ (8 - (0 + 7) - 1)) with 1. change (2 ^ 1) with 2. rewrite Z.div_1_r. do 2 f_equal.
    change (Z.land ((b mod 2)) (Z.ones 1) = if f then 1 else 0). rewrite Z.land_ones by lia. change (2 ^ 1) with 2. unfold b. destruct f; lia.
Qed.

Lemma option_sweep (c : bool) (k : Z) : 0 <= k < 128 ->
  let b := (if c then 128 else 0) + k in 0 <= b < 256 /\ (b / 2 ^ (8 - 1 - 7)) mod 2 ^ 7 = k.
Proof. intros K b. unfold b. change (2 ^ (8 - 1 - 7)) with 1. change (2 ^ 7) with 128. destruct c; lia. Qed.

Lemma hdr_reads : forall os q acc fuel, Forall option_ok os -> (length (flat_map option_bytes os) <= fuel)%nat ->
  NoDup (map fst acc) -> hdr_vals acc -> (forall k, In k (map fst acc) -> option_type_ok k = true) ->
  exists l, hdr_loop fuel acc (at_ q (flat_map option_bytes os)) = Ok l /\ NoDup (map fst l) /\ hdr_vals l /\
    (forall k, In k (map fst l) -> option_type_ok k = true) /\
    forall k, match latest option_type k os with
              | Some o => exists v, dget Z.eqb k l = Some v /\ option_reads o v
              | None => dget Z.eqb k l = dget Z.eqb k acc
              end.
Proof.
  induction os as [|o os IH]; intros q acc fuel F L ND HV HT; cbn [flat_map].
  - exists acc. split; [destruct fuel; cbn [hdr_loop]; rewrite at_left; reflexivity|]. split; [exact ND|]. split; [exact HV|]. split; [exact HT|]. reflexivity.
  - inversion F as [|? ? OK F']; subst. cbn [flat_map] in L. rewrite app_length in L. unfold option_bytes at 1 in L. cbn [length] in L.
    destruct fuel as [|fuel]; [lia|]. cbn [hdr_loop]. rewrite at_left. change (option_bytes o ++ flat_map option_bytes os) with ((if option_critical o then 128 else 0) + option_type o :: zlen (option_data o) :: option_data o ++ flat_map option_bytes os).
    set (rest := zlen (option_data o) :: option_data o ++ flat_map option_bytes os).
    destruct (Z.gtb_spec (zlen ((if option_critical o then 128 else 0) + option_type o :: rest)) 0) as [_|X];
      [|rewrite zlen_cons in X; pose proof (zlen_nonneg rest); lia].
    assert (TY : 0 <= option_type o < 128) by (destruct o; cbn; lia).
    destruct (option_sweep (option_critical o) (option_type o) TY) as [HB HM]. cbv zeta in *.
    set (b := (if option_critical o then 128 else 0) + option_type o) in *.
    unfold sub_Zip_ZIPPacketOption at 2.
    erewrite parse_step; [|rewrite at_left; apply zpos|cbn [a_parse a_ty ds0]; rewrite <- mid_0, mid_bits by lia; reflexivity|reflexivity].
    erewrite parse_step; [|rewrite mid_left by lia; pose proof (zlen_nonneg rest); lia|cbn [a_parse a_ty ds0]; rewrite mid_bits by lia; reflexivity|reflexivity].
    change (0 + 1) with 1 in *. rewrite HM. change (1 + 7) with 8. rewrite mid_8.
    set (d1 := aset _ _ _).
    destruct (optionData_reads o (q ++ [b]) (flat_map option_bytes os) d1 OK eq_refl) as (v & EV & [RV IV]).
    erewrite parse_step; [|rewrite at_left; apply zpos|exact EV|].
    2:{ unfold setattr. change (find_attr _ _) with (Some (mkA "optionData" TOptData (Some HOptData) None)).
        cbn [a_ty]. unfold setattr_coerce. rewrite IV. cbn [bind]. reflexivity. }
    cbn [parse_attrs bind]. unfold d1. cbn [aset aget dset dget String.eqb Ascii.eqb Bool.eqb a_name to_int bind].
    destruct (IH (((q ++ [b]) ++ [zlen (option_data o)]) ++ option_data o) (dset Z.eqb (option_type o) v acc) fuel F') as (l & E & N1 & V1 & T1 & G).
    { lia. }
    { apply dset_keys. exact ND. }
    { apply dset_forall; [intros; exact IV|exact HV]. }
    { intros k I. destruct (proj2 (dset_keys (option_type o) v acc ND) k I) as [->|I']; [destruct o; reflexivity|auto]. }
    exists l. split; [exact E|]. split; [exact N1|]. split; [exact V1|]. split; [exact T1|].
    intros k. specialize (G k). cbn [latest]. destruct (latest option_type k os) as [o'|]; [exact G|].
    destruct (Z.eqb_spec (option_type o) k) as [<-|N].
    + rewrite dget_dset_same in G. eauto.
    + rewrite dget_dset_other in G by congruence. exact G.
Qed.

Lemma dset_fresh {V} k (v : V) d : ~ In k (map fst d) -> dset Z.eqb k v d = d ++ [(k, v)].
Proof.
  induction d as [|[k' v'] d IH]; cbn [dset map fst app In]; intros N; [reflexivity|].
  destruct (Z.eqb_spec k k') as [->|]; [elim N; auto|]. rewrite IH by auto. reflexivity.
Qed.
Lemma hdr_setstate_same : forall l acc, NoDup (map fst (acc ++ l)) -> hdr_vals l -> (forall k, In k (map fst l) -> option_type_ok k = true) ->
  vardict_setstate option_type_ok optdata_coerce l acc = Ok (acc ++ l).
Proof.
  induction l as [|[k v] l IH]; intros acc ND HV HT; cbn [vardict_setstate]; [rewrite app_nil_r; reflexivity|].
  rewrite (HT k) by (left; reflexivity). inversion HV as [|? ? V1 V2]; subst. cbn [snd] in V1. unfold optdata_coerce. rewrite V1. cbn [bind].
  rewrite dset_fresh.
  - rewrite IH; [rewrite <- app_assoc; reflexivity| |exact V2|intros k' I; apply HT; right; exact I]. rewrite <- app_assoc. exact ND.
  - rewrite map_app in ND. cbn [map fst] in ND. apply NoDup_remove_2 in ND. intros I. apply ND. apply in_or_app. left. exact I.
Qed.

Lemma hdr_deserialize_reads os q tl : Forall option_ok os -> zlen (flat_map option_bytes os) < 255 ->
  exists l, hdr_deserialize (at_ q ((1 + zlen (flat_map option_bytes os)) :: flat_map option_bytes os ++ tl)) =
      Ok (VDict l, at_ ((q ++ [1 + zlen (flat_map option_bytes os)]) ++ flat_map option_bytes os) tl) /\
    setattr_coerce THdr (VDict l) = Ok (VHdr l) /\ extension_reads os l.
Proof.
  intros F L. unfold hdr_deserialize. rewrite at_byte. cbn [bind].
  rewrite (at_value _ (flat_map option_bytes os)) by lia. cbn [bind]. rewrite new_at.
  destruct (hdr_reads os [] [] (length (flat_map option_bytes os)) F (Nat.le_refl _) ltac:(constructor) ltac:(constructor) ltac:(intros k [])) as (l & -> & ND & HV & HT & G).
  cbn [bind]. exists l. split; [reflexivity|]. split.
  - unfold setattr_coerce. cbn [isinst has_setstate setstate items bind]. rewrite hdr_setstate_same; [reflexivity|exact ND|exact HV|exact HT].
  - intros k. specialize (G k). destruct (latest option_type k os); exact G.
Qed.

(** ** the packet around it *)
Definition zip_header : list attr := Eval cbv in firstn 17 (s_attrs m_Zip_ZipPacket).
Lemma zip_in : In m_Zip_ZipPacket registry. Proof. unfold registry. repeat (first [left; reflexivity | right]). Qed.
Lemma zip_attrs : s_attrs m_Zip_ZipPacket = zip_header ++ [mkA "headerExtension" THdr (Some HHeaderExt) None; mkA "command" TMsg None None].
Proof. reflexivity. Qed.

Lemma stored_header all pre cs p d : cut pre (bits_of p) = Some cs -> stored all pre cs [] d -> header_reads all pre p d.
Proof. intros C ST. exists cs. split; [exact C|]. intros n c LP. specialize (ST n). rewrite LP in ST. exact ST. Qed.
Lemma header_aset all pre p d n v : header_reads all pre p d -> (forall c cs, cut pre (bits_of p) = Some cs -> last_piece n pre cs <> Some c) ->
  header_reads all pre p (aset n v d).
Proof.
  intros (cs & C & H) N. exists cs. split; [exact C|]. intros m c LP. destruct (H m c LP) as (x & t & G & D & R).
  exists x, t. rewrite aget_aset_other; [auto|]. intros ->. apply (N c cs C LP).
Qed.
Lemma last_piece_declared n : forall l cs, declared n l = None -> last_piece n l cs = None.
Proof.
  induction l as [|a l IH]; intros cs D; cbn [last_piece]; [reflexivity|]. cbn [declared] in D.
  destruct cs as [|c cs]; [reflexivity|]. destruct (String.eqb n (a_name a)); [discriminate|]. rewrite IH by exact D. reflexivity.
Qed.

Lemma zip_flag f0 f1 sq se de cs d : bytes_ok [f0; f1; sq; se; de] -> cut zip_header (bits_of [f0; f1; sq; se; de]) = Some cs ->
  stored (s_attrs m_Zip_ZipPacket) zip_header cs [] d -> aget "headerExtIncluded" d = Some (VF (f1 / 128)).
Proof.
  intros B C ST. specialize (ST "headerExtIncluded"). cbn in C. injection C as <-. cbn in ST. destruct ST as (v & t & G & D & R).
  injection D as <-. inversion R; subst. rewrite G. do 2 f_equal. inversion B as [|? ? _ B']. inversion B' as [|? ? HF _]; subst.
  change (2 * 0 + Z.b2z (Z.testbit f1 7) = f1 / 128). rewrite Z.testbit_eqb by lia. change (2 ^ 7) with 128.
  destruct (Z.eqb_spec ((f1 / 128) mod 2) 1); cbn [Z.b2z]; lia.
Qed.

Lemma zip_extension f0 f1 sq se de os cmd : bytes_ok [f0; f1; sq; se; de] -> 128 <= f1 -> Forall option_ok os ->
  zlen (flat_map option_bytes os) < 255 -> bytes_ok cmd ->
  let ext := (1 + zlen (flat_map option_bytes os)) :: flat_map option_bytes os in
  match (match cmd with [] => Ok VNone | _ => decode cmd end) with
  | Err e => decode (35 :: 2 :: [f0; f1; sq; se; de] ++ ext ++ cmd) = Err e
  | Ok m => exists d l, decode (35 :: 2 :: [f0; f1; sq; se; de] ++ ext ++ cmd) = Ok (VObj (CMsg m_Zip_ZipPacket) d) /\
      header_reads (s_attrs m_Zip_ZipPacket) zip_header [f0; f1; sq; se; de] d /\
      aget "headerExtension" d = Some (VHdr l) /\ extension_reads os l /\
      aget "command" d = match cmd with [] => None | _ => Some m end
  end.
Proof.
  intros B HF F L BC ext. set (p1 := [f0; f1; sq; se; de]) in *.
  assert (BE : bytes_ok (ext ++ cmd)).
  { apply bytes_ok_app. split; [|exact BC]. unfold ext. constructor; [pose proof (zlen_nonneg (flat_map option_bytes os)); lia|].
    clear - F. induction F as [|o os OK F IH]; cbn [flat_map]; [constructor|]. apply bytes_ok_app. split; [|exact IH].
    destruct (option_data_ok o OK) as [BD LD]. unfold option_bytes. constructor; [destruct o as [[]|[]|[]]; cbn; lia|].
    constructor; [pose proof (zlen_nonneg (option_data o)); lia|exact BD]. }
  destruct (frame_prefix m_Zip_ZipPacket zip_header _ p1 (ext ++ cmd) zip_in zip_attrs eq_refl B BE eq_refl) as (d & q & cs & f & CU & ST & DO & BQ & LQ & EF & E).
  change (s_cls m_Zip_ZipPacket) with 35 in E. change (s_cmd m_Zip_ZipPacket) with 2 in E.
  pose proof (zip_flag _ _ _ _ _ _ _ B CU ST) as FL.
  assert (HE : aget "headerExtension" d = None).
  { pose proof (DO "headerExtension") as X. exact X. }
  assert (HC : aget "command" d = None).
  { pose proof (DO "command") as X. exact X. }
  destruct (hdr_deserialize_reads os q cmd F L) as (l & EH & CO & ER).
  erewrite parse_step in E; [| | |].
  2:{ rewrite at_left. unfold ext. cbn [app]. apply zpos. }
  2:{ cbn [a_parse hk2]. rewrite FL. cbn [truthy]. destruct (Z.eqb_spec (f1 / 128) 0); [lia|]. cbn [negb]. exact EH. }
  2:{ unfold setattr. change (find_attr _ _) with (Some (mkA "headerExtension" THdr (Some HHeaderExt) None)). cbn [a_ty a_name]. rewrite CO. cbn [bind].
      rewrite HE. reflexivity. }
  cbn [a_name] in E.
  assert (HR : header_reads (s_attrs m_Zip_ZipPacket) zip_header p1 (aset "headerExtension" (VHdr l) d)).
  { apply header_aset; [exact (stored_header _ _ _ _ _ CU ST)|]. intros c cs' _. rewrite last_piece_declared by reflexivity. discriminate. }
  destruct cmd as [|x cmd'].
  - rewrite parse_stop in E by (rewrite at_left; reflexivity). cbn [bind] in E. exists (aset "headerExtension" (VHdr l) d), l.
    split; [exact E|]. split; [exact HR|]. split; [apply aget_aset_same|]. split; [exact ER|]. rewrite aget_aset_other by discriminate. exact HC.
  - set (cmd := x :: cmd') in *.
    pose proof (deserialize_at ((q ++ [1 + zlen (flat_map option_bytes os)]) ++ flat_map option_bytes os) cmd f BC) as DA.
    specialize (DA ltac:(rewrite EF, !app_length; unfold zlen; lia)).
    cbn [parse_attrs] in E. rewrite at_left in E. destruct (Z.eqb_spec (zlen cmd) 0) as [X|_]; [elim (zpos _ _ X)|]. cbn [a_parse a_ty ds2] in E.
    destruct (decode cmd) as [m|e].
    + destruct DA as ((r & DA) & IM & _). rewrite DA in E. cbn [bind] in E. unfold setattr in E.
      change (find_attr (a_name (mkA "command" TMsg None None)) (s_attrs m_Zip_ZipPacket)) with (Some (mkA "command" TMsg None None)) in E.
      cbn [a_ty a_name] in E. unfold setattr_coerce in E. unfold is_message in IM. rewrite IM in E. cbn [bind] in E.
      rewrite aget_aset_other, HC in E by discriminate. cbn [bind] in E.
      eexists _, l. split; [exact E|]. split.
      { apply header_aset; [exact HR|]. intros c cs' _. rewrite last_piece_declared by reflexivity. discriminate. }
      rewrite aget_aset_same. split; [rewrite aget_aset_other by discriminate; apply aget_aset_same|]. auto.
    + destruct DA as [DA _]. rewrite DA in E. exact E.
Qed.

(** ** C10: an unknown option *)
Lemma unknown_option_fails f0 f1 sq se de ty data cmd : bytes_ok [f0; f1; sq; se; de] -> 128 <= f1 ->
  0 <= ty < 128 -> ty <> 1 -> ty <> 3 -> ty <> 4 -> bytes_ok data -> zlen data < 252 -> bytes_ok cmd ->
  decode (35 :: 2 :: [f0; f1; sq; se; de] ++ ((3 + zlen data) :: ty :: zlen data :: data) ++ cmd) = Err EAttribute.
Proof.
  intros B HF HT T1 T3 T4 BD LD BC. set (p1 := [f0; f1; sq; se; de]) in *. pose proof (zlen_nonneg data).
  assert (BE : bytes_ok (((3 + zlen data) :: ty :: zlen data :: data) ++ cmd)).
  { apply bytes_ok_app. split; [|exact BC]. repeat (constructor; [lia|]). exact BD. }
  destruct (frame_prefix m_Zip_ZipPacket zip_header _ p1 _ zip_in zip_attrs eq_refl B BE eq_refl) as (d & q & cs & f & CU & ST & DO & BQ & LQ & EF & E).
  change (s_cls m_Zip_ZipPacket) with 35 in E. change (s_cmd m_Zip_ZipPacket) with 2 in E. rewrite E.
  pose proof (zip_flag _ _ _ _ _ _ _ B CU ST) as FL. clear E.
  cbn [parse_attrs]. rewrite at_left. cbn [app]. match goal with |- context [zlen (?x :: ?l) =? 0] => destruct (Z.eqb_spec (zlen (x :: l)) 0) as [X|_]; [elim (zpos _ _ X)|] end.
  cbn [a_parse hk2]. rewrite FL. cbn [truthy]. destruct (Z.eqb_spec (f1 / 128) 0); [lia|]. cbn [negb].
  unfold hdr_deserialize. rewrite at_byte. cbn [bind].
  change (ty :: zlen data :: data ++ cmd) with ((ty :: zlen data :: data) ++ cmd).
  rewrite at_value by (rewrite !zlen_cons; lia). cbn [bind]. rewrite new_at.
  assert (EH : hdr_loop (length (ty :: zlen data :: data)) [] (at_ [] (ty :: zlen data :: data)) = Err EAttribute).
  { cbn [length hdr_loop]. rewrite at_left. destruct (Z.gtb_spec (zlen (ty :: zlen data :: data)) 0) as [_|X]; [|rewrite zlen_cons in X; pose proof (zlen_nonneg (zlen data :: data)); lia].
    unfold sub_Zip_ZIPPacketOption at 2.
    erewrite parse_step; [|rewrite at_left; apply zpos|cbn [a_parse a_ty ds0]; rewrite <- mid_0, mid_bits by lia; reflexivity|reflexivity].
    erewrite parse_step; [|rewrite mid_left by lia; pose proof (zlen_nonneg (zlen data :: data)); lia|cbn [a_parse a_ty ds0]; rewrite mid_bits by lia; reflexivity|reflexivity].
    change (0 + 1 + 7) with 8. rewrite mid_8. cbn [parse_attrs]. rewrite at_left.
    destruct (Z.eqb_spec (zlen (zlen data :: data)) 0) as [X|_]; [elim (zpos _ _ X)|]. cbn [a_parse hk1]. unfold parse_optionData.
    rewrite at_byte. cbn [bind]. match goal with |- context [at_ ?q data] => replace (at_ q data) with (at_ q (data ++ [])) by (rewrite app_nil_r; reflexivity) end. rewrite (at_value _ data [] _ eq_refl). cbn [bind].
    cbn [aset aget dset dget String.eqb Ascii.eqb Bool.eqb to_int bind].
    change (2 ^ (8 - (0 + 1) - 7)) with 1. change (2 ^ 7) with 128. replace ((ty / 1) mod 128) with ty by lia.
    destruct ty as [|[[[]|[]|]|[[]|[]|]|]|]; try reflexivity; lia. }
  rewrite EH. reflexivity.
Qed.
