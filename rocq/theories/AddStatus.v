(** Proofs for C130. *)
From Coq Require Import String ZArith List Bool Lia ZifyBool ZifyNat.
From Verif Require Import Py BitStream Schema Registry Codec SpecBits BitLemmas ReaderLemmas SpecDecode SpecTotal
  EncodeProofs DecodeLemmas DecodeProofs CodecProofs ParseRel TotalProofs ByteReader SpecFields HeaderProofs FieldProofs ReportProofs SpecAddStatus.
Import ListNotations.
Open Scope list_scope.
Open Scope string_scope.
Open Scope list_scope.
Open Scope Z_scope.
Local Ltac Zify.zify_post_hook ::= Z.div_mod_to_equations.
Local Notation m := m_NetworkManagementInclusion_NodeAddStatus.

Lemma add_in : In m registry.
Proof. vm_compute. repeat first [left; reflexivity|right]. Qed.

Definition add_attr := mkA "commandClass" TList (Some HNodeAddCC) None.
Definition add_pre : list attr := Eval cbv in firstn 12 (s_attrs m).

Lemma slice_back (l : list Z) a b : 0 <= b <= a -> pyslice l a b = [].
Proof.
  intros H. unfold pyslice, slice_index. destruct (Z.ltb_spec a 0); [lia|]. destruct (Z.ltb_spec b 0); [lia|].
  match goal with |- firstn ?k _ = _ => replace k with 0%nat by lia end. reflexivity.
Qed.
Lemma take_some q bs n : 7 <= zlen q -> 0 <= n -> bs <> [] ->
  exists v r, (if n - 7 >? zlen bs then let (x, r') := remaining (at_ q bs) in Ok (VList (map VInt x), r')
    else do (x, r') <- rvalue (n - 7) (at_ q bs); Ok (VList (map VInt x), r')) = Ok (v, r) /\ v = VList (map VInt (firstn (Z.to_nat (n - 7)) bs)).
Proof.
  intros Q N NE. pose proof (zlen_nonneg bs). destruct (Z.gtb_spec (n - 7) (zlen bs)) as [G|G].
  - pose proof (at_remaining q bs) as E. destruct (remaining (at_ q bs)) as [x r']. cbn [fst] in E. subst x.
    eexists _, _. split; [reflexivity|]. rewrite firstn_all2 by (unfold zlen in *; lia). reflexivity.
  - destruct (Z.le_gt_cases 7 n) as [P|P].
    + assert (L : zlen (firstn (Z.to_nat (n - 7)) bs) = n - 7) by (unfold zlen in *; rewrite firstn_length; lia).
      pose proof (at_value q (firstn (Z.to_nat (n - 7)) bs) (skipn (Z.to_nat (n - 7)) bs) _ L) as E.
      rewrite firstn_skipn in E. rewrite E. cbn [bind]. eexists _, _. split; reflexivity.
    + replace (Z.to_nat (n - 7)) with 0%nat by lia. unfold rvalue. rewrite at_start. unfold at_ at 1. cbn [r_val]. rewrite zlen_app.
      destruct (Z.gtb_spec (zlen q + (n - 7)) (zlen q + zlen bs)); [lia|]. cbn [bind].
      eexists _, _. split; [reflexivity|]. cbn [firstn]. do 2 f_equal.
      unfold at_. cbn [r_val]. apply slice_back. lia.
Qed.

Lemma add_status s st rs node n c1 c2 b g sp bs :
  bytes_ok [s; st; rs; node; n; c1; c2; b; g; sp] -> bytes_ok bs ->
  exists d, decode (52 :: 2 :: [s; st; rs; node; n; c1; c2; b; g; sp] ++ bs) = Ok (VObj (CMsg m) d) /\
    aget "seqNo" d = Some (VI false 1 s) /\ aget "status" d = Some (VI false 1 st) /\ aget "newNodeID" d = Some (VI false 1 node) /\
    aget "nodeInfoLength" d = Some (VI false 1 n) /\
    aget "listening" d = Some (VF (c1 / 128)) /\ aget "optFunc" d = Some (VF (c2 / 128)) /\
    aget "basicDeviceClass" d = Some (VI false 1 b) /\ aget "genericDeviceClass" d = Some (VI false 1 g) /\
    aget "specificDeviceClass" d = Some (VI false 1 sp) /\
    aget "commandClass" d = match bs with [] => None | _ => Some (VList (map VInt (firstn (Z.to_nat (n - 7)) bs))) end.
Proof.
  intros B B2. set (p1 := [s; st; rs; node; n; c1; c2; b; g; sp]) in *.
  destruct (frame_prefix m add_pre [add_attr] p1 bs add_in eq_refl eq_refl B B2 eq_refl) as (d & q & cs & f & CU & ST & DO & BQ & LQ & EF & E).
  change (s_cls m) with 52 in E. change (s_cmd m) with 2 in E.
  pose proof (stored_header _ _ _ _ _ CU ST) as HR.
  assert (HF : forall d, header_reads (s_attrs m) add_pre p1 d ->
    aget "seqNo" d = Some (VI false 1 s) /\ aget "status" d = Some (VI false 1 st) /\ aget "newNodeID" d = Some (VI false 1 node) /\
    aget "nodeInfoLength" d = Some (VI false 1 n) /\
    aget "listening" d = Some (VF (c1 / 128)) /\ aget "optFunc" d = Some (VF (c2 / 128)) /\
    aget "basicDeviceClass" d = Some (VI false 1 b) /\ aget "genericDeviceClass" d = Some (VI false 1 g) /\
    aget "specificDeviceClass" d = Some (VI false 1 sp)).
  { clear - B. unfold p1 in *. clear p1. intros d (cs & CU & HR). unfold bytes_ok in B. rewrite !Forall_cons_iff in B.
    destruct B as (B0 & B1 & B2 & B3 & B4 & B5 & B6 & B7 & B8 & B9 & _).
    cbv -[Z.testbit] in CU. apply some_inj in CU. subst cs.
    field_of HR "seqNo" (nbits 8 s). field_of HR "status" (nbits 8 st). field_of HR "newNodeID" (nbits 8 node). field_of HR "nodeInfoLength" (nbits 8 n).
    field_of HR "basicDeviceClass" (nbits 8 b). field_of HR "genericDeviceClass" (nbits 8 g). field_of HR "specificDeviceClass" (nbits 8 sp).
    field_of HR "listening" [Z.testbit c1 7]. field_of HR "optFunc" [Z.testbit c2 7].
    rewrite !num_low in *. rewrite !num_bit in * by lia. change (2 ^ Z.of_nat 8) with 256 in *. change (2 ^ 7) with 128 in *.
    rewrite !Z.mod_small in * by lia. repeat split; try assumption. }
  destruct bs as [|x bs'].
  - rewrite parse_stop in E by (rewrite at_left; reflexivity). cbn [bind] in E. exists d. split; [exact E|].
    destruct (HF d HR) as (? & ? & ? & ? & ? & ? & ? & ? & ?). repeat (split; [assumption|]). exact (DO "commandClass").
  - set (bs := x :: bs') in *. destruct (HF d HR) as (_ & _ & _ & GN & _).
    assert (HN : 0 <= n) by (unfold p1, bytes_ok in B; rewrite !Forall_cons_iff in B; lia).
    destruct (take_some q bs n ltac:(rewrite LQ; reflexivity || (unfold p1, zlen; cbn [length]; lia)) HN ltac:(discriminate)) as (v & r & EV & ->).
    erewrite parse_step in E; [| | |].
    2:{ rewrite at_left. apply zpos. }
    2:{ cbn [a_parse add_attr hk2]. unfold int_attr. rewrite GN. cbn [to_int bind]. rewrite at_left. exact EV. }
    2:{ apply (setattr_fresh _ _ TList _ (VList (map VInt (firstn (Z.to_nat (n - 7)) bs)))); [reflexivity|reflexivity|exact (DO "commandClass")]. }
    cbn [parse_attrs bind a_name add_attr] in E. eexists. split; [exact E|].
    assert (HR' : header_reads (s_attrs m) add_pre p1 (aset "commandClass" (VList (map VInt (firstn (Z.to_nat (n - 7)) bs))) d)).
    { apply header_aset; [exact HR|]. intros c cs' _. rewrite last_piece_declared by reflexivity. discriminate. }
    destruct (HF _ HR') as (? & ? & ? & ? & ? & ? & ? & ? & ?). repeat (split; [assumption|]). apply aget_aset_same.
Qed.

Lemma first_firstn : forall l n, first_of n l (firstn (Z.to_nat n) l).
Proof.
  induction l as [|x l IH]; intros n.
  - rewrite firstn_nil. apply fo_end.
  - destruct (Z.le_gt_cases n 0) as [N|N].
    + replace (Z.to_nat n) with 0%nat by lia. apply fo_none. exact N.
    + replace (Z.to_nat n) with (S (Z.to_nat (n - 1))) by lia. cbn [firstn]. apply fo_more; [lia|apply IH].
Qed.
Lemma added_decodes a : added_ok a ->
  exists d, decode (added_bytes a) = Ok (VObj (CMsg m) d) /\
    aget "seqNo" d = Some (VI false 1 (ad_seq a)) /\ aget "status" d = Some (VI false 1 (ad_status a)) /\
    aget "newNodeID" d = Some (VI false 1 (ad_node a)) /\
    aget "listening" d = Some (VF (if ad_listening a then 1 else 0)) /\ aget "optFunc" d = Some (VF (if ad_optional a then 1 else 0)) /\
    aget "basicDeviceClass" d = Some (VI false 1 (ad_basic a)) /\ aget "genericDeviceClass" d = Some (VI false 1 (ad_generic a)) /\
    aget "specificDeviceClass" d = Some (VI false 1 (ad_specific a)) /\
    match ad_classes a with
    | [] => aget "commandClass" d = None
    | _ => exists l, aget "commandClass" d = Some (VList (map VInt l)) /\ first_of (ad_length a - 7) (ad_classes a) l
    end.
Proof.
  intros (H1 & H2 & H3 & H4 & H5 & H6 & H7 & H8 & H9 & H10 & H11). unfold a_byte in *.
  set (c1 := (if ad_listening a then 128 else 0) + ad_protocol a). set (c2 := (if ad_optional a then 128 else 0) + ad_protocol2 a).
  assert (C1 : 0 <= c1 < 256 /\ c1 / 128 = if ad_listening a then 1 else 0) by (unfold c1; destruct (ad_listening a); lia).
  assert (C2 : 0 <= c2 < 256 /\ c2 / 128 = if ad_optional a then 1 else 0) by (unfold c2; destruct (ad_optional a); lia).
  destruct C1 as [C1 <-], C2 as [C2 <-].
  destruct (add_status (ad_seq a) (ad_status a) (ad_reserved a) (ad_node a) (ad_length a) c1 c2 (ad_basic a) (ad_generic a) (ad_specific a) (ad_classes a))
    as (d & E & ? & ? & ? & _ & ? & ? & ? & ? & ? & EC); [repeat (constructor; [assumption|]); constructor|exact H11|].
  exists d. split; [exact E|]. repeat (split; [assumption|]). destruct (ad_classes a) as [|x l]; [exact EC|]. eexists. split; [exact EC|]. apply first_firstn.
Qed.
Lemma first_one n l k k' : first_of n l k -> first_of n l k' -> k = k'.
Proof.
  intros H. revert k'. induction H as [n l N|n|n x l k N H IH]; intros k' H'; inversion H'; subst; try reflexivity; try lia.
  f_equal. apply IH. assumption.
Qed.
