(** Lemmas relating the reader and the writer to bit strings. *)
From Coq Require Import ZArith List Bool Lia ZifyBool ZifyNat.
From Verif Require Import Py BitStream SpecBits.
Import ListNotations.
Open Scope Z_scope.
Local Ltac Zify.zify_post_hook ::= Z.div_mod_to_equations.

Arguments Z.mul : simpl never.
Arguments Z.add : simpl never.
Arguments Z.sub : simpl never.
Arguments Z.pow : simpl never.
Arguments Z.of_nat : simpl never.
Arguments Z.div : simpl never.
Arguments Z.modulo : simpl never.

(** ** nbits / num *)
Lemma nbits_length n z : length (nbits n z) = n.
Proof. induction n; simpl; congruence. Qed.

Lemma nbits_app n m z : nbits (n + m) z = nbits n (Z.shiftr z (Z.of_nat m)) ++ nbits m z.
Proof.
  induction n; simpl; [reflexivity|].
  rewrite IHn. f_equal. rewrite Z.shiftr_spec by lia. f_equal. lia.
Qed.

Lemma num_app l1 l2 : num (l1 ++ l2) = num l1 * 2 ^ Z.of_nat (length l2) + num l2.
Proof.
  unfold num. rewrite fold_left_app.
  assert (H : forall l a, fold_left (fun acc b => 2 * acc + Z.b2z b) l a
              = a * 2 ^ Z.of_nat (length l) + fold_left (fun acc b => 2 * acc + Z.b2z b) l 0).
  { induction l; intros; cbn [fold_left length].
    - change (2 ^ Z.of_nat 0) with 1. lia.
    - rewrite IHl. rewrite (IHl (2 * 0 + Z.b2z a)).
      rewrite Nat2Z.inj_succ, Z.pow_succ_r by lia. ring. }
  apply H.
Qed.

Lemma num_cons b l : num (b :: l) = Z.b2z b * 2 ^ Z.of_nat (length l) + num l.
Proof.
  change (b :: l) with ([b] ++ l). rewrite num_app. f_equal.
Qed.

Lemma num_range l : 0 <= num l < 2 ^ Z.of_nat (length l).
Proof.
  induction l as [|b l IH].
  - unfold num; cbn. lia.
  - rewrite num_cons. cbn [length]. rewrite Nat2Z.inj_succ, Z.pow_succ_r by lia.
    destruct b; cbn [Z.b2z]; lia.
Qed.

Lemma num_nbits n z : num (nbits n z) = z mod 2 ^ Z.of_nat n.
Proof.
  induction n as [|n IH].
  - cbn. symmetry; apply Z.mod_1_r.
  - cbn [nbits]. rewrite num_cons, nbits_length, IH.
    rewrite Nat2Z.inj_succ, Z.pow_succ_r by lia. rewrite (Z.mul_comm 2).
    rewrite Z.rem_mul_r by lia.
    rewrite Z.testbit_spec' by lia. ring.
Qed.

Lemma num_nbits_small n z : 0 <= z < 2 ^ Z.of_nat n -> num (nbits n z) = z.
Proof. intros. rewrite num_nbits. apply Z.mod_small. exact H. Qed.

Lemma nbits_mod n m z : (n <= m)%nat -> nbits n (z mod 2 ^ Z.of_nat m) = nbits n z.
Proof.
  induction n as [|n IH]; intros; [reflexivity|]. cbn [nbits]. rewrite IH by lia. f_equal.
  rewrite Z.mod_pow2_bits_low by lia. reflexivity.
Qed.

Lemma nbits_num l : nbits (length l) (num l) = l.
Proof.
  induction l as [|b l IH]; [reflexivity|].
  cbn [nbits length]. rewrite num_cons. pose proof (num_range l).
  f_equal.
  - apply Z.b2z_inj. rewrite Z.testbit_spec' by lia.
    rewrite Z.div_add_l by lia. rewrite Z.div_small by lia.
    destruct b; reflexivity.
  - rewrite <- (nbits_mod _ (length l)) by lia.
    rewrite Z.add_comm, Z.mod_add by lia. rewrite Z.mod_small by lia. exact IH.
Qed.

Lemma num_inj l1 l2 : length l1 = length l2 -> num l1 = num l2 -> l1 = l2.
Proof. intros HL HN. rewrite <- (nbits_num l1), <- (nbits_num l2). congruence. Qed.

Lemma nbits_inj n a b : 0 <= a < 2 ^ Z.of_nat n -> 0 <= b < 2 ^ Z.of_nat n -> nbits n a = nbits n b -> a = b.
Proof. intros Ha Hb H. rewrite <- (num_nbits_small n a), <- (num_nbits_small n b) by assumption. congruence. Qed.

(** ** bytes *)
Lemma bits_of_length bs : length (bits_of bs) = (8 * length bs)%nat.
Proof. unfold bits_of. induction bs; [reflexivity|]. cbn [flat_map]. rewrite app_length, nbits_length, IHbs. cbn [length]. lia. Qed.

Lemma bits_of_app a b : bits_of (a ++ b) = bits_of a ++ bits_of b.
Proof. unfold bits_of. apply flat_map_app. Qed.

Lemma bits_of_single b : bits_of [b] = nbits 8 b.
Proof. unfold bits_of. cbn [flat_map]. apply app_nil_r. Qed.

Lemma bits_of_cons b bs : bits_of (b :: bs) = nbits 8 b ++ bits_of bs.
Proof. reflexivity. Qed.

Lemma app_eq_len {A} (a b x y : list A) : length a = length b -> a ++ x = b ++ y -> a = b /\ x = y.
Proof.
  revert b; induction a as [|u a IH]; destruct b as [|v b]; intros L E; cbn in *; try discriminate; [auto|].
  injection E as -> E. injection L as L. destruct (IH _ L E). split; congruence.
Qed.

Lemma bits_of_inj a b : bytes_ok a -> bytes_ok b -> bits_of a = bits_of b -> a = b.
Proof.
  intros Ha; revert b; induction Ha as [|x a Hx Ha IH]; intros b Hb H.
  - destruct b; [reflexivity|]. apply (f_equal (@length bool)) in H. rewrite !bits_of_length in H. cbn in H. lia.
  - destruct b as [|y b]. { apply (f_equal (@length bool)) in H. rewrite !bits_of_length in H. cbn in H. lia. }
    inversion Hb; subst. unfold bits_of in H; cbn [flat_map] in H.
    assert (nbits 8 x = nbits 8 y /\ bits_of a = bits_of b) as [HA HB].
    { apply app_eq_len; [rewrite !nbits_length; reflexivity|exact H]. }
    f_equal; [|auto]. apply (nbits_inj 8); try (change (2 ^ Z.of_nat 8) with 256; lia); assumption.
Qed.

Lemma bytes_ok_app a b : bytes_ok (a ++ b) <-> bytes_ok a /\ bytes_ok b.
Proof. unfold bytes_ok. apply Forall_app. Qed.

Lemma is_byte_spec b : is_byte b = true <-> 0 <= b < 256.
Proof. unfold is_byte. lia. Qed.

Lemma forallb_bytes l : forallb is_byte l = true <-> bytes_ok l.
Proof.
  unfold bytes_ok. rewrite forallb_forall, Forall_forall. split; intros H x Hx; apply is_byte_spec; auto.
Qed.

Lemma from_bytes_u_app a b : from_bytes_u (a ++ b) = from_bytes_u a * 256 ^ zlen b + from_bytes_u b.
Proof.
  unfold from_bytes_u. rewrite fold_left_app.
  assert (H : forall l x, fold_left (fun acc b => acc * 256 + b) l x
              = x * 256 ^ zlen l + fold_left (fun acc b => acc * 256 + b) l 0).
  { unfold zlen. induction l; intros; cbn [fold_left length].
    - change (256 ^ Z.of_nat 0) with 1. lia.
    - rewrite IHl. rewrite (IHl (0 * 256 + a0)). rewrite Nat2Z.inj_succ, Z.pow_succ_r by lia. ring. }
  apply H.
Qed.

Lemma from_bytes_u_num bs : bytes_ok bs -> from_bytes_u bs = num (bits_of bs).
Proof.
  induction bs as [|b bs IH] using rev_ind; intros H; [reflexivity|].
  apply bytes_ok_app in H as [H1 H2]. inversion H2; subst.
  rewrite from_bytes_u_app, bits_of_app, num_app, IH by assumption.
  unfold zlen; cbn [length]. change (256 ^ Z.of_nat 1) with 256.
  rewrite bits_of_single, nbits_length.
  change (2 ^ Z.of_nat 8) with 256. f_equal.
  rewrite num_nbits_small by (change (2 ^ Z.of_nat 8) with 256; lia).
  unfold from_bytes_u; cbn. lia.
Qed.

Lemma be_bytes_length n v : length (be_bytes n v) = n.
Proof. revert v; induction n; intros; cbn [be_bytes]; [reflexivity|]. rewrite app_length, IHn. cbn. lia. Qed.

Lemma be_bytes_ok n v : bytes_ok (be_bytes n v).
Proof.
  revert v; induction n; intros; cbn [be_bytes]; [constructor|].
  apply bytes_ok_app. split; [auto|]. repeat constructor; lia.
Qed.

Lemma be_bytes_bits n v : bits_of (be_bytes n v) = nbits (8 * n) v.
Proof.
  revert v; induction n; intros; cbn [be_bytes]; [reflexivity|].
  rewrite bits_of_app, IHn. replace (8 * S n)%nat with (8 * n + 8)%nat by lia.
  rewrite nbits_app. rewrite Z.shiftr_div_pow2 by lia. change (2 ^ Z.of_nat 8) with 256.
  f_equal. rewrite bits_of_single.
  change 256 with (2 ^ Z.of_nat 8). apply nbits_mod. lia.
Qed.

Lemma from_bytes_u_range bs : bytes_ok bs -> 0 <= from_bytes_u bs < 2 ^ (8 * zlen bs).
Proof.
  intros. rewrite from_bytes_u_num by assumption. pose proof (num_range (bits_of bs)).
  rewrite bits_of_length in H0. unfold zlen. replace (8 * Z.of_nat (length bs)) with (Z.of_nat (8 * length bs)) by lia.
  exact H0.
Qed.

Lemma from_bytes_s_snum bs : bytes_ok bs -> from_bytes_s bs = snum (bits_of bs).
Proof.
  intros H. unfold from_bytes_s. rewrite from_bytes_u_num by assumption.
  pose proof (bits_of_length bs) as HL. unfold zlen in *.
  destruct (bits_of bs) as [|b l] eqn:E.
  - cbn in HL. destruct bs; [reflexivity|cbn in HL; lia].
  - cbn [length] in HL. cbn [snum].
    rewrite num_cons. pose proof (num_range l).
    replace (8 * Z.of_nat (length bs)) with (Z.succ (Z.of_nat (length l))) by lia.
    replace (Z.succ (Z.of_nat (length l)) - 1) with (Z.of_nat (length l)) by lia.
    destruct (0 <? Z.succ (Z.of_nat (length l))) eqn:E0; [|lia]. cbn [andb].
    cbn [length]. rewrite Nat2Z.inj_succ.
    destruct b; cbn [Z.b2z].
    + destruct (Z.leb_spec (2 ^ Z.of_nat (length l)) (1 * 2 ^ Z.of_nat (length l) + num l)); lia.
    + destruct (Z.leb_spec (2 ^ Z.of_nat (length l)) (0 * 2 ^ Z.of_nat (length l) + num l)); lia.
Qed.

Lemma snum_nbits n z : (0 < n)%nat -> - 2 ^ (Z.of_nat n - 1) <= z < 2 ^ (Z.of_nat n - 1) -> snum (nbits n z) = z.
Proof.
  intros Hn Hz. destruct n as [|m]; [lia|].
  replace (Z.of_nat (S m) - 1) with (Z.of_nat m) in Hz by lia.
  pose proof (num_nbits (S m) z) as HN.
  cbn [nbits] in *. 
  assert (Z.testbit z (Z.of_nat m) = (z <? 0)) as HB.
  { apply Z.b2z_inj. rewrite Z.testbit_spec' by lia.
    destruct (Z.ltb_spec z 0); cbn [Z.b2z].
    - replace (z / 2 ^ Z.of_nat m) with (-1); [reflexivity|].
      apply Z.div_unique with (r := z + 2 ^ Z.of_nat m); lia.
    - rewrite Z.div_small by lia. reflexivity. }
  rewrite HB in *. rewrite Nat2Z.inj_succ, Z.pow_succ_r in HN by lia.
  destruct (Z.ltb_spec z 0); cbn [snum].
  - rewrite HN. cbn [length]. rewrite nbits_length, Nat2Z.inj_succ, Z.pow_succ_r by lia.
    rewrite <- (Z.mod_unique z (2 * 2 ^ Z.of_nat m) (-1) (z + 2 * 2 ^ Z.of_nat m)); lia.
  - rewrite HN. apply Z.mod_small. lia.
Qed.
