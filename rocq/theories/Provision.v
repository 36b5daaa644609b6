(** Proofs for C129. *)
From Coq Require Import String ZArith List Bool Lia ZifyBool ZifyNat.
From Verif Require Import Py BitStream Schema Registry Codec SpecBits BitLemmas ReaderLemmas SpecDecode SpecTotal
  EncodeProofs DecodeLemmas DecodeProofs CodecProofs ParseRel TotalProofs ByteReader SpecFields HeaderProofs SpecProvision.
Import ListNotations.
Open Scope list_scope.
Open Scope string_scope.
Open Scope list_scope.
Open Scope Z_scope.
Local Ltac Zify.zify_post_hook ::= Z.div_mod_to_equations.

Lemma md_known_ok k : In k md_known <-> meta_type_ok k = true.
Proof. unfold md_known, meta_type_ok. cbn [In]. lia. Qed.
Lemma md_bytes_ok es : Forall md_wellformed es -> bytes_ok (flat_map md_bytes es).
Proof.
  induction 1 as [|e es (T & L & B) F IH]; cbn [flat_map]; [constructor|]. apply bytes_ok_app. split; [|exact IH].
  unfold md_bytes. pose proof (zlen_nonneg (md_data e)). constructor; [destruct (md_critical e); lia|]. constructor; [lia|exact B].
Qed.

(** the metadata loop *)
Lemma meta_reads : forall es q acc fuel, Forall md_wellformed es -> (length (flat_map md_bytes es) <= fuel)%nat ->
  NoDup (map fst acc) -> meta_vals acc ->
  exists l, meta_loop fuel acc (at_ q (flat_map md_bytes es)) = Ok (l, at_ (q ++ flat_map md_bytes es) []) /\ NoDup (map fst l) /\ meta_vals l /\
    (forall k, In k (map fst l) <-> In k (map fst acc) \/ In k (map md_type es)) /\
    forall k, dget Z.eqb k l = match last_data k es with Some bs => Some (VPBytes bs) | None => dget Z.eqb k acc end.
Proof.
  induction es as [|e es IH]; intros q acc fuel F L ND MV; cbn [flat_map].
  - exists acc. split; [|split; [exact ND|split; [exact MV|split; [cbn; tauto|reflexivity]]]].
    rewrite app_nil_r. destruct fuel; cbn [meta_loop]; rewrite at_left; reflexivity.
  - inversion F as [|? ? (T & SL & SB) F']; subst. cbn [flat_map] in L. rewrite app_length in L. unfold md_bytes at 1 in L. cbn [length] in L.
    destruct fuel as [|fuel]; [lia|]. cbn [meta_loop]. rewrite at_left.
    change (md_bytes e ++ flat_map md_bytes es) with ((2 * md_type e + (if md_critical e then 1 else 0)) :: zlen (md_data e) :: md_data e ++ flat_map md_bytes es).
    set (b := 2 * md_type e + (if md_critical e then 1 else 0)).
    assert (HB : 0 <= b < 256) by (unfold b; destruct (md_critical e); lia).
    assert (HT : (b / 2 ^ (8 - 0 - 7)) mod 2 ^ 7 = md_type e).
    { change (2 ^ (8 - 0 - 7)) with 2. change (2 ^ 7) with 128. unfold b. destruct (md_critical e); lia. }
    match goal with |- context [if zlen ?x =? 0 then _ else _] => destruct (Z.eqb_spec (zlen x) 0) as [X|_]; [elim (zpos _ _ X)|] end.
    rewrite <- mid_0, mid_bits by lia. cbn [bind]. rewrite HT. change (0 + 7) with 7.
    unfold rbit. rewrite mid_bits by lia. cbn [bind]. change (7 + 1) with 8. rewrite mid_8, at_byte. cbn [bind].
    rewrite (at_value _ (md_data e) _ _ eq_refl). cbn [bind].
    destruct (dset_keys (md_type e) (VPBytes (md_data e)) acc ND) as [K1 K2].
    destruct (IH (((q ++ [b]) ++ [zlen (md_data e)]) ++ md_data e) (dset Z.eqb (md_type e) (VPBytes (md_data e)) acc) fuel F' ltac:(lia) K1) as (l & E & N1 & V1 & KK & G).
    { apply dset_forall; [intros; eexists; reflexivity|exact MV]. }
    exists l. split.
    { rewrite E. do 3 f_equal. rewrite <- !app_assoc. reflexivity. }
    split; [exact N1|]. split; [exact V1|]. split.
    + intros k. rewrite KK. cbn [map In]. split.
      * intros [I|I]; [destruct (K2 k I) as [->|I']; auto|auto].
      * intros [I|[<-|I]]; [left|left|auto].
        -- clear - I. induction acc as [|[k' v'] acc IH]; [destruct I|]. cbn [dset]. destruct (Z.eqb_spec (md_type e) k'); cbn [map fst In] in *; [subst; tauto|]. destruct I; auto.
        -- clear. induction acc as [|[k' v'] acc IH]; cbn [dset]; [left; reflexivity|]. destruct (Z.eqb_spec (md_type e) k'); cbn [map fst In]; auto.
    + intros k. rewrite G. cbn [last_data]. destruct (last_data k es); [reflexivity|].
      destruct (Z.eqb_spec (md_type e) k) as [<-|N]; [apply dget_dset_same|apply dget_dset_other; congruence].
Qed.
Lemma meta_same : forall l acc, NoDup (map fst (acc ++ l)) -> meta_vals l -> (forall k, In k (map fst l) -> meta_type_ok k = true) ->
  vardict_setstate meta_type_ok meta_coerce l acc = Ok (acc ++ l).
Proof.
  induction l as [|[k v] l IH]; intros acc ND HV HT; cbn [vardict_setstate]; [rewrite app_nil_r; reflexivity|].
  rewrite (HT k) by (left; reflexivity). inversion HV as [|? ? [bs V1] V2]; subst. cbn [snd] in V1. subst v. cbn [meta_coerce bind].
  rewrite map_app in ND. cbn [map fst] in ND.
  rewrite dset_fresh.
  - rewrite IH; [rewrite <- app_assoc; reflexivity| |exact V2|intros; apply HT; right; assumption].
    rewrite <- app_assoc, map_app. exact ND.
  - intros I. apply NoDup_remove_2 in ND. apply ND. apply in_or_app. left. exact I.
Qed.
Lemma meta_unknown : forall l acc k, meta_vals l -> In k (map fst l) -> meta_type_ok k = false ->
  vardict_setstate meta_type_ok meta_coerce l acc = Err EValue.
Proof.
  induction l as [|[k' v] l IH]; intros acc k HV I U; [destruct I|]. inversion HV as [|? ? [bs V1] V2]; subst. cbn [snd] in V1. subst v.
  cbn [vardict_setstate]. destruct (meta_type_ok k') eqn:K; [|reflexivity]. cbn [meta_coerce bind]. destruct I as [<-|I]; [cbn [fst] in U; congruence|].
  eapply IH; eauto.
Qed.

Local Notation m := m_NodeProvisioning_ListIterationReport.
Lemma prov_in : In m registry.
Proof. vm_compute. repeat first [left; reflexivity|right]. Qed.

Definition head (s c r n : Z) : list (string * val) := [("seqNo", VI false 1 s); ("remainingCount", VI false 1 c); ("-", VB 3 r); ("dskLengthN", VU 5 n)].
Definition dsk_attr := mkA "dsk" TDsk (Some HIterDsk) None.
Definition meta_attr := mkA "metaDataExtension" TMeta None None.

(** up to the key *)
Lemma prov_head s c r n tl : is_byte s -> is_byte c -> 0 <= r < 8 -> 0 <= n < 32 -> bytes_ok tl ->
  exists q f, decode (120 :: 4 :: s :: c :: (32 * r + n) :: tl) =
    do (d', _) <- parse_attrs (hk2 (deserialize f)) (ds2 (deserialize f)) (s_attrs m) [dsk_attr; meta_attr] (head s c r n) (at_ q tl); Ok (VObj (CMsg m) d').
Proof.
  unfold is_byte. intros S C R N B. set (x := 32 * r + n). assert (HX : 0 <= x < 256) by (unfold x; lia).
  assert (BX : bytes_ok (s :: c :: x :: tl)) by (repeat (constructor; [assumption|]); exact B).
  destruct (frame_prefix m [] (s_attrs m) [] (s :: c :: x :: tl) prov_in eq_refl eq_refl ltac:(constructor) BX eq_refl)
    as (d & q & cs & f & CU & ST & DO & BQ & LQ & EF & E).
  injection CU as <-. assert (d = []) as -> .
  { destruct d as [|[k v] d]; [reflexivity|]. pose proof (DO k) as X. cbn in X. unfold aget in X. cbn [dget] in X. rewrite String.eqb_refl in X. discriminate X. }
  clear ST DO EF.
  change (s_cls m) with 120 in E. change (s_cmd m) with 4 in E. cbn [app] in E.
  exists (((q ++ [s]) ++ [c]) ++ [x]), f. rewrite E. clear E. unfold m at 2.
  cbn [s_attrs].
  erewrite parse_step; [|rewrite at_left; apply zpos|apply at_ds_u8|reflexivity].
  erewrite parse_step; [|rewrite at_left; apply zpos|apply at_ds_u8|reflexivity].
  erewrite parse_step; [|rewrite at_left; apply zpos|cbn [a_parse a_ty ds2 ds0]; rewrite <- mid_0, mid_bits by lia; reflexivity|reflexivity].
  erewrite parse_step; [|rewrite mid_left by lia; pose proof (zlen_nonneg tl); lia|cbn [a_parse a_ty ds2 ds0]; rewrite mid_bits by lia; reflexivity|reflexivity].
  change (0 + 3 + 5) with 8. rewrite mid_8. change (2 ^ (8 - 0 - 3)) with 32. change (2 ^ 3) with 8. change (2 ^ (8 - (0 + 3) - 5)) with 1. change (2 ^ 5) with 32.
  replace ((x / 32) mod 8) with r by (unfold x; lia). replace ((x / 1) mod 32) with n by (unfold x; lia).
  reflexivity.
Qed.

Definition key_ok (key : list Z) : Prop := key = [] \/ length key = 16%nat.

(** the key *)
Lemma prov_key f s c r key es q : key_ok key -> Forall is_byte key -> key ++ flat_map md_bytes es <> [] ->
  parse_attrs (hk2 (deserialize f)) (ds2 (deserialize f)) (s_attrs m) [dsk_attr; meta_attr] (head s c r (zlen key)) (at_ q (key ++ flat_map md_bytes es)) =
  parse_attrs (hk2 (deserialize f)) (ds2 (deserialize f)) (s_attrs m) [meta_attr] (head s c r (zlen key) ++ [("dsk", VDsk key)]) (at_ (q ++ key) (flat_map md_bytes es)).
Proof.
  intros K B N. apply parse_step with (v := VPBytes key) (u := Some (VDsk key)).
  - rewrite at_left. destruct (key ++ flat_map md_bytes es); [congruence|apply zpos].
  - cbn [a_parse dsk_attr hk2]. change (int_attr "dskLengthN" (head s c r (zlen key))) with (@Ok Z (zlen key)). cbn [bind]. unfold dsk_deserializeN.
    destruct K as [->|K].
    + cbn [zlen length]. rewrite app_nil_r. reflexivity.
    + assert (zlen key = 16) as L by (unfold zlen; lia). rewrite L. cbn [Z.eqb Pos.eqb negb]. rewrite (at_value q key _ 16 L). reflexivity.
  - unfold setattr. change (find_attr _ _) with (Some dsk_attr). cbn [a_ty dsk_attr]. unfold setattr_coerce. cbn [isinst has_setstate setstate dsk_setstate].
    assert ((zlen key =? 16) || (zlen key =? 0) = true) as -> by (destruct K as [->|K]; [reflexivity|unfold zlen; lia]). cbn [bind]. reflexivity.
Qed.

Lemma prov_meta f d q es : Forall md_wellformed es -> es <> [] -> aget "metaDataExtension" d = None ->
  exists l, (forall k, dget Z.eqb k l = match last_data k es with Some bs => Some (VPBytes bs) | None => None end) /\
  (Forall (fun e => In (md_type e) md_known) es ->
    exists q', parse_attrs (hk2 (deserialize f)) (ds2 (deserialize f)) (s_attrs m) [meta_attr] d (at_ q (flat_map md_bytes es)) = Ok (aset "metaDataExtension" (VMeta l) d, q')) /\
  (Exists (fun e => ~ In (md_type e) md_known) es ->
    parse_attrs (hk2 (deserialize f)) (ds2 (deserialize f)) (s_attrs m) [meta_attr] d (at_ q (flat_map md_bytes es)) = Err EValue).
Proof.
  intros F N HN.
  destruct (meta_reads es q [] (Z.to_nat (zlen (flat_map md_bytes es))) F) as (l & E & ND & MV & KK & G); [unfold zlen; lia|constructor|constructor|].
  exists l. split; [exact G|].
  assert (NE : zlen (flat_map md_bytes es) <> 0).
  { destruct es as [|e es]; [congruence|]. cbn [flat_map]. unfold md_bytes at 1. apply zpos. }
  assert (DS : ds2 (deserialize f) TMeta (at_ q (flat_map md_bytes es)) = Ok (VDict l, at_ (q ++ flat_map md_bytes es) [])).
  { cbn [ds2 ds0]. rewrite at_left, E. reflexivity. }
  split.
  - intros KN. eexists. erewrite parse_step; [| |exact DS|].
    2:{ rewrite at_left. exact NE. }
    2:{ unfold setattr. change (find_attr _ _) with (Some meta_attr). cbn [a_ty meta_attr]. unfold setattr_coerce. cbn [isinst has_setstate setstate items bind].
        rewrite meta_same; [|exact ND|exact MV|].
        - change (a_name meta_attr) with "metaDataExtension". cbn [bind app]. rewrite HN. reflexivity.
        - intros k I. apply KK in I as [[]|I]. apply in_map_iff in I as (e & <- & I). apply md_known_ok. exact (proj1 (Forall_forall _ _) KN e I). }
    reflexivity.
  - intros EX. apply Exists_exists in EX as (e & I & U). cbn [parse_attrs]. rewrite at_left. destruct (Z.eqb_spec (zlen (flat_map md_bytes es)) 0); [contradiction|].
    cbn [a_parse a_ty meta_attr]. rewrite DS. cbn [bind].
    unfold setattr. change (find_attr _ _) with (Some meta_attr). cbn [a_ty meta_attr]. unfold setattr_coerce. cbn [isinst has_setstate setstate items bind].
    rewrite (meta_unknown l [] (md_type e)); [reflexivity|exact MV| |].
    + apply KK. right. apply in_map. exact I.
    + destruct (meta_type_ok (md_type e)) eqn:X; [|reflexivity]. apply md_known_ok in X. contradiction.
Qed.

Definition entry_ok (s c r : Z) (key : list Z) (es : list metadatum) : Prop :=
  is_byte s /\ is_byte c /\ 0 <= r < 8 /\ key_ok key /\ Forall is_byte key /\ Forall md_wellformed es.

Lemma entry_decodes s c r key es : entry_ok s c r key es -> Forall (fun e => In (md_type e) md_known) es ->
  exists d, decode (entry_report s c r key es) = Ok (VObj (CMsg m) d) /\
    aget "seqNo" d = Some (VI false 1 s) /\ aget "remainingCount" d = Some (VI false 1 c) /\
    aget "dsk" d = match key ++ flat_map md_bytes es with [] => None | _ => Some (VDsk key) end /\
    match es with
    | [] => aget "metaDataExtension" d = None
    | _ => exists l, aget "metaDataExtension" d = Some (VMeta l) /\
             forall k, dget Z.eqb k l = match last_data k es with Some bs => Some (VPBytes bs) | None => None end
    end.
Proof.
  intros (S & C & R & K & B & F) KN. assert (HL : 0 <= zlen key < 32) by (destruct K as [->|K]; unfold zlen; cbn [length]; lia).
  destruct (prov_head s c r (zlen key) (key ++ flat_map md_bytes es) S C R HL) as (q & f & E).
  { apply bytes_ok_app. split; [exact B|apply md_bytes_ok; exact F]. }
  unfold entry_report. rewrite E. clear E. destruct (key ++ flat_map md_bytes es) as [|x tl] eqn:T.
  - apply app_eq_nil in T as [-> T]. destruct es as [|e es]; [|discriminate T].
    rewrite parse_stop by (rewrite at_left; reflexivity). eexists. split; [reflexivity|]. repeat split.
  - rewrite <- T. rewrite prov_key; [|exact K|exact B|congruence]. set (d0 := head s c r (zlen key) ++ [("dsk", VDsk key)]).
    destruct es as [|e es'].
    + rewrite parse_stop by (cbn [flat_map]; rewrite at_left; reflexivity). eexists. split; [reflexivity|]. repeat split.
    + destruct (prov_meta f d0 (q ++ key) (e :: es') F ltac:(discriminate) eq_refl) as (l & G & P & _). destruct (P KN) as (q' & E). rewrite E. cbn [bind].
      eexists. split; [reflexivity|]. split; [reflexivity|]. split; [reflexivity|]. split; [reflexivity|]. exists l. split; [reflexivity|exact G].
Qed.
Lemma entry_lost s c r key es : entry_ok s c r key es -> Exists (fun e => ~ In (md_type e) md_known) es ->
  decode (entry_report s c r key es) = Err EValue.
Proof.
  intros (S & C & R & K & B & F) EX. assert (HL : 0 <= zlen key < 32) by (destruct K as [->|K]; unfold zlen; cbn [length]; lia).
  destruct (prov_head s c r (zlen key) (key ++ flat_map md_bytes es) S C R HL) as (q & f & E).
  { apply bytes_ok_app. split; [exact B|apply md_bytes_ok; exact F]. }
  unfold entry_report. rewrite E. clear E. destruct es as [|e es']; [inversion EX|].
  rewrite prov_key; [|exact K|exact B|].
  2:{ cbn [flat_map]. unfold md_bytes at 1. intros X. apply app_eq_nil in X as [_ X]. discriminate X. }
  set (d0 := head s c r (zlen key) ++ [("dsk", VDsk key)]).
  destruct (prov_meta f d0 (q ++ key) (e :: es') F ltac:(discriminate) eq_refl) as (l & G & _ & P). rewrite (P EX). reflexivity.
Qed.
(** keys of other lengths *)
Lemma entry_key_refused s c r n tl : is_byte s -> is_byte c -> 0 <= r < 8 -> 0 <= n < 32 -> n <> 0 -> n <> 16 -> Forall is_byte tl -> tl <> [] ->
  decode (120 :: 4 :: s :: c :: (32 * r + n) :: tl) = Err EValue.
Proof.
  intros S C R N N0 N16 B NE. destruct (prov_head s c r n tl S C R N B) as (q & f & E). rewrite E. clear E. cbn [parse_attrs]. rewrite at_left.
  destruct (Z.eqb_spec (zlen tl) 0) as [X|_]; [destruct tl; [contradiction|elim (zpos _ _ X)]|]. cbn [a_parse dsk_attr hk2].
  change (int_attr "dskLengthN" (head s c r n)) with (@Ok Z n). cbn [bind]. unfold dsk_deserializeN.
  destruct (Z.eqb_spec n 0); [contradiction|]. destruct (Z.eqb_spec n 16); [contradiction|]. reflexivity.
Qed.
(** a key that is cut *)
Lemma entry_key_cut s c r tl : is_byte s -> is_byte c -> 0 <= r < 8 -> Forall is_byte tl -> tl <> [] -> zlen tl < 16 ->
  decode (120 :: 4 :: s :: c :: (32 * r + 16) :: tl) = Err EEOF.
Proof.
  intros S C R B NE L. destruct (prov_head s c r 16 tl S C R ltac:(lia) B) as (q & f & E). rewrite E. clear E. cbn [parse_attrs]. rewrite at_left.
  destruct (Z.eqb_spec (zlen tl) 0) as [X|_]; [destruct tl; [contradiction|elim (zpos _ _ X)]|]. cbn [a_parse dsk_attr hk2].
  change (int_attr "dskLengthN" (head s c r 16)) with (@Ok Z 16). cbn [bind]. unfold dsk_deserializeN. cbn [Z.eqb Pos.eqb negb].
  rewrite at_value_eof by exact L. reflexivity.
Qed.
(** metadata that is cut *)
Lemma meta_cut : forall es q acc fuel b x, Forall md_wellformed es -> 0 <= b < 256 -> (forall n, hd_error x = Some n -> zlen (tl x) < n) ->
  (length (flat_map md_bytes es ++ b :: x) <= fuel)%nat ->
  meta_loop fuel acc (at_ q (flat_map md_bytes es ++ b :: x)) = Err EEOF.
Proof.
  induction es as [|e es IH]; intros q acc fuel b x F HB HX L; cbn [flat_map app] in *.
  - cbn [length] in L. destruct fuel as [|fuel]; [lia|]. cbn [meta_loop]. rewrite at_left.
    destruct (Z.eqb_spec (zlen (b :: x)) 0) as [X|_]; [elim (zpos _ _ X)|].
    rewrite <- mid_0, mid_bits by lia. cbn [bind]. change (0 + 7) with 7.
    unfold rbit. rewrite mid_bits by lia. cbn [bind]. change (7 + 1) with 8. rewrite mid_8.
    destruct x as [|n x]; [rewrite at_byte_eof; reflexivity|]. rewrite at_byte. cbn [bind].
    rewrite at_value_eof by exact (HX n eq_refl). reflexivity.
  - inversion F as [|? ? (T & SL & SB) F']; subst. rewrite <- app_assoc in *. rewrite app_length in L. unfold md_bytes at 1 in L. cbn [length] in L.
    destruct fuel as [|fuel]; [lia|]. cbn [meta_loop]. rewrite at_left.
    change (md_bytes e ++ flat_map md_bytes es ++ b :: x) with ((2 * md_type e + (if md_critical e then 1 else 0)) :: zlen (md_data e) :: md_data e ++ flat_map md_bytes es ++ b :: x).
    set (b0 := 2 * md_type e + (if md_critical e then 1 else 0)).
    assert (HB0 : 0 <= b0 < 256) by (unfold b0; destruct (md_critical e); lia).
    match goal with |- context [if zlen ?x =? 0 then _ else _] => destruct (Z.eqb_spec (zlen x) 0) as [X|_]; [elim (zpos _ _ X)|] end.
    rewrite <- mid_0, mid_bits by lia. cbn [bind]. change (0 + 7) with 7.
    unfold rbit. rewrite mid_bits by lia. cbn [bind]. change (7 + 1) with 8. rewrite mid_8, at_byte. cbn [bind].
    rewrite (at_value _ (md_data e) _ _ eq_refl). cbn [bind]. apply IH; [exact F'|exact HB|exact HX|lia].
Qed.
Lemma entry_cut s c r key es b x : entry_ok s c r key es -> is_byte b -> Forall is_byte x -> (forall n, hd_error x = Some n -> zlen (tl x) < n) ->
  decode (entry_report s c r key es ++ b :: x) = Err EEOF.
Proof.
  intros (S & C & R & K & B & F) HB BX HX. assert (HL : 0 <= zlen key < 32) by (destruct K as [->|K]; unfold zlen; cbn [length]; lia).
  unfold entry_report. cbn [app]. rewrite <- app_assoc.
  destruct (prov_head s c r (zlen key) (key ++ flat_map md_bytes es ++ b :: x) S C R HL) as (q & f & E).
  { apply bytes_ok_app. split; [exact B|]. apply bytes_ok_app. split; [apply md_bytes_ok; exact F|]. constructor; assumption. }
  rewrite E. clear E. set (y := flat_map md_bytes es ++ b :: x).
  assert (NY : zlen y <> 0) by (unfold y, zlen; rewrite app_length; cbn [length]; lia).
  rewrite (parse_step _ _ _ _ _ _ _ (VPBytes key) (at_ (q ++ key) y) (head s c r (zlen key) ++ [("dsk", VDsk key)]) (Some (VDsk key))).
  - cbn [parse_attrs]. rewrite at_left. destruct (Z.eqb_spec (zlen y) 0); [contradiction|]. cbn [a_parse a_ty meta_attr ds2 ds0]. rewrite at_left. unfold y.
    rewrite meta_cut; [reflexivity|exact F|exact HB|exact HX|unfold zlen; lia].
  - rewrite at_left. rewrite zlen_app. pose proof (zlen_nonneg key). pose proof (zlen_nonneg y). lia.
  - cbn [a_parse dsk_attr hk2]. change (int_attr "dskLengthN" (head s c r (zlen key))) with (@Ok Z (zlen key)). cbn [bind]. unfold dsk_deserializeN.
    destruct K as [->|K].
    + cbn [zlen length]. rewrite app_nil_r. reflexivity.
    + assert (zlen key = 16) as L by (unfold zlen; lia). rewrite L. cbn [Z.eqb Pos.eqb negb]. rewrite (at_value q key _ 16 L). reflexivity.
  - unfold setattr. change (find_attr _ _) with (Some dsk_attr). cbn [a_ty dsk_attr]. unfold setattr_coerce. cbn [isinst has_setstate setstate dsk_setstate].
    assert ((zlen key =? 16) || (zlen key =? 0) = true) as -> by (destruct K as [->|K]; [reflexivity|unfold zlen; lia]). cbn [bind]. reflexivity.
Qed.
