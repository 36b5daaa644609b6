(** The mailbox checksum: which messages it tells apart (C75). *)
From Coq Require Import ZArith List Bool Lia ZifyBool.
From Verif Require Import Py SpecBits BitLemmas MailboxM.
Import ListNotations.
Open Scope list_scope.
Open Scope Z_scope.

Definition low_bytes : list Z := map Z.of_nat (seq 0 256).
Lemma in_low z : 0 <= z < 256 -> In z low_bytes.
Proof. intros H. apply in_map_iff. exists (Z.to_nat z). split; [lia|]. apply in_seq. lia. Qed.
Definition F (x : Z) : Z := crc_bits 8 x.
Definition L (a : Z) : Z := F (256 * a) mod 256.
Definition H (a : Z) : Z := F (256 * a) / 256.
(** the number of one bits of a 16 bit number, modulo two *)
Definition parity16 (z : Z) : bool := fold_left xorb (map (Z.testbit z) [0; 1; 2; 3; 4; 5; 6; 7; 8; 9; 10; 11; 12; 13; 14; 15]) false.
Lemma F_table : forallb (fun a => forallb (fun b => (F (256 * a + b) =? 256 * Z.lxor (H a) b + L a) && eqb (parity16 (F (256 * a + b))) (parity16 (256 * a + b))) low_bytes) low_bytes = true.
Proof. vm_compute. reflexivity. Qed.
Lemma LH_table : forallb (fun a => (0 <=? L a) && (L a <? 256) && (0 <=? H a) && (H a <? 256) && forallb (fun b => negb (L a =? L b) || (a =? b)) low_bytes) low_bytes = true.
Proof. vm_compute. reflexivity. Qed.
Lemma F_ok a b : 0 <= a < 256 -> 0 <= b < 256 -> F (256 * a + b) = 256 * Z.lxor (H a) b + L a /\ parity16 (F (256 * a + b)) = parity16 (256 * a + b).
Proof.
  intros A B. pose proof F_table as T. rewrite forallb_forall in T. specialize (T a (in_low a A)). rewrite forallb_forall in T. specialize (T b (in_low b B)). apply andb_true_iff in T as [T1 T2].
  split; [lia|]. apply eqb_prop. exact T2.
Qed.
Lemma LH_ok a : 0 <= a < 256 -> 0 <= L a < 256 /\ 0 <= H a < 256 /\ forall b, 0 <= b < 256 -> L a = L b -> a = b.
Proof.
  intros A. pose proof LH_table as T. rewrite forallb_forall in T. specialize (T a (in_low a A)). rewrite !andb_true_iff in T. destruct T as ((((T1 & T2) & T3) & T4) & T5).
  split; [lia|]. split; [lia|]. intros b B E. rewrite forallb_forall in T5. specialize (T5 b (in_low b B)). lia.
Qed.
Lemma lxor_byte a b : 0 <= a < 256 -> 0 <= b < 256 -> 0 <= Z.lxor a b < 256.
Proof.
  intros A B. assert (0 <= Z.lxor a b) as N by (apply Z.lxor_nonneg; lia). split; [exact N|]. destruct (Z.eq_dec (Z.lxor a b) 0) as [->|]; [lia|].
  apply Z.log2_lt_pow2 with (b := 8); [lia|]. pose proof (Z.log2_lxor a b ltac:(lia) ltac:(lia)) as LL.
  assert (forall z, 0 <= z < 256 -> Z.log2 z < 8) as K. { intros z Z0. destruct (Z.eq_dec z 0) as [->|]; [reflexivity|]. apply Z.log2_lt_pow2; lia. }
  pose proof (K a A). pose proof (K b B). lia.
Qed.
Lemma lxor_inj a b c : Z.lxor a b = Z.lxor a c -> b = c.
Proof. intros E. rewrite <- (Z.lxor_0_l b), <- (Z.lxor_0_l c), <- (Z.lxor_nilpotent a), !Z.lxor_assoc. f_equal. exact E. Qed.
Lemma lxor_high c d : Z.lxor c (Z.shiftl d 8) = 256 * Z.lxor (c / 256) d + c mod 256.
Proof.
  rewrite (Z.mul_comm 256). change 256 with (2 ^ 8). rewrite <- Z.shiftl_mul_pow2, <- Z.shiftr_div_pow2, <- Z.land_ones by lia.
  assert (D : Z.land (Z.shiftl (Z.lxor (Z.shiftr c 8) d) 8) (Z.land c (Z.ones 8)) = 0).
  { apply Z.bits_inj'. intros n Hn. rewrite !Z.land_spec, Z.bits_0, Z.shiftl_spec by lia. destruct (Z.ltb_spec n 8); [rewrite Z.testbit_neg_r by lia; reflexivity|]. rewrite Z.ones_spec_high by lia. rewrite !andb_false_r. reflexivity. }
  rewrite <- (Z.lxor_lor _ _ D) || idtac. rewrite Z.add_nocarry_lxor by exact D.
  apply Z.bits_inj'. intros n Hn. rewrite !Z.lxor_spec, !Z.shiftl_spec, Z.land_spec by lia. destruct (Z.ltb_spec n 8).
  - rewrite !(Z.testbit_neg_r _ (n - 8)) by lia. rewrite Z.ones_spec_low by lia. rewrite andb_true_r, xorb_false_r, xorb_false_l. reflexivity.
  - rewrite Z.lxor_spec, Z.shiftr_spec, Z.ones_spec_high by lia. replace (n - 8 + 8) with n by lia. rewrite andb_false_r, xorb_false_r. reflexivity.
Qed.
Definition word (c : Z) : Prop := 0 <= c < 65536.
Lemma word_parts c : word c -> 0 <= c / 256 < 256 /\ 0 <= c mod 256 < 256.
Proof. unfold word. intros W. lia. Qed.
(** one byte: the new state *)
Lemma crc_byte_ok c d : word c -> 0 <= d < 256 -> crc_byte c d = 256 * Z.lxor (H (Z.lxor (c / 256) d)) (c mod 256) + L (Z.lxor (c / 256) d) /\ word (crc_byte c d).
Proof.
  intros W D. destruct (word_parts c W) as [A B]. pose proof (lxor_byte _ _ A D) as X. unfold crc_byte. rewrite lxor_high. fold (F (256 * Z.lxor (c / 256) d + c mod 256)).
  destruct (F_ok _ _ X B) as [-> _]. split; [reflexivity|]. destruct (LH_ok _ X) as (LO & HI & _). pose proof (lxor_byte _ _ HI B). unfold word. lia.
Qed.
Lemma crc_byte_word c d : word c -> 0 <= d < 256 -> word (crc_byte c d).
Proof. intros W D. apply crc_byte_ok; assumption. Qed.
Lemma crc_byte_parts c d : word c -> 0 <= d < 256 -> crc_byte c d mod 256 = L (Z.lxor (c / 256) d) /\ crc_byte c d / 256 = Z.lxor (H (Z.lxor (c / 256) d)) (c mod 256).
Proof.
  intros W D. destruct (crc_byte_ok c d W D) as [-> _]. destruct (word_parts c W) as [A B]. pose proof (lxor_byte _ _ A D) as X. destruct (LH_ok _ X) as (LO & HI & _). pose proof (lxor_byte _ _ HI B).
  split; lia.
Qed.
Lemma crc_byte_inj c c' d d' : word c -> word c' -> 0 <= d < 256 -> 0 <= d' < 256 -> crc_byte c d = crc_byte c' d' -> Z.lxor (c / 256) d = Z.lxor (c' / 256) d' /\ c mod 256 = c' mod 256.
Proof.
  intros W W' D D' E. destruct (crc_byte_parts c d W D) as [P1 P2], (crc_byte_parts c' d' W' D') as [P1' P2']. destruct (word_parts c W) as [A B], (word_parts c' W') as [A' B'].
  rewrite E in P1, P2. destruct (LH_ok _ (lxor_byte _ _ A D)) as (_ & _ & I). assert (Z.lxor (c / 256) d = Z.lxor (c' / 256) d') as Q by (apply I; [apply lxor_byte; assumption|congruence]).
  split; [exact Q|]. apply (lxor_inj (H (Z.lxor (c / 256) d))). congruence.
Qed.
Lemma crc_byte_inj_state c c' d : word c -> word c' -> 0 <= d < 256 -> crc_byte c d = crc_byte c' d -> c = c'.
Proof.
  intros W W' D E. destruct (crc_byte_inj _ _ _ _ W W' D D E) as [A B]. rewrite (Z.lxor_comm (c / 256)), (Z.lxor_comm (c' / 256)) in A. apply lxor_inj in A.
  rewrite (Z.div_mod c 256), (Z.div_mod c' 256) by lia. congruence.
Qed.
Lemma fold_word bs : forall c, word c -> bytes_ok bs -> word (fold_left crc_byte bs c).
Proof. induction bs as [|b bs IH]; intros c W B; [exact W|]. inversion B; subst. cbn [fold_left]. apply IH; [apply crc_byte_word; assumption|assumption]. Qed.
Lemma fold_inj bs : forall c c', word c -> word c' -> bytes_ok bs -> fold_left crc_byte bs c = fold_left crc_byte bs c' -> c = c'.
Proof.
  induction bs as [|b bs IH]; intros c c' W W' B E; [exact E|]. inversion B; subst. cbn [fold_left] in E. apply (crc_byte_inj_state c c' b); [assumption..|]. apply IH; [apply crc_byte_word; assumption|apply crc_byte_word; assumption|assumption|exact E].
Qed.
Lemma two_bytes c a b a' b' : word c -> 0 <= a < 256 -> 0 <= b < 256 -> 0 <= a' < 256 -> 0 <= b' < 256 -> crc_byte (crc_byte c a) b = crc_byte (crc_byte c a') b' -> a = a' /\ b = b'.
Proof.
  intros W HA HB HA' HB' E.
  destruct (crc_byte_inj _ _ _ _ (crc_byte_word _ _ W HA) (crc_byte_word _ _ W HA') HB HB' E) as [E1 E2].
  assert (a = a') as EA.
  { destruct (crc_byte_parts c a W HA) as [P _], (crc_byte_parts c a' W HA') as [P' _]. rewrite P, P' in E2. destruct (word_parts c W) as [CA _].
    destruct (LH_ok _ (lxor_byte _ _ CA HA)) as (_ & _ & I). apply I in E2; [|apply lxor_byte; assumption]. apply lxor_inj in E2. exact E2. }
  split; [exact EA|]. rewrite EA in E1. apply lxor_inj in E1. exact E1.
Qed.
Opaque crc_byte.
Lemma burst p q a b a' b' : bytes_ok (p ++ [a; b] ++ q) -> bytes_ok [a'; b'] -> checksum (p ++ [a; b] ++ q) = checksum (p ++ [a'; b'] ++ q) -> a = a' /\ b = b'.
Proof.
  intros B B' E. apply Forall_app in B as [BP B]. apply Forall_app in B as [BA BQ]. inversion BA as [|? ? HA BA1]; subst. inversion BA1 as [|? ? HB _]; subst. inversion B' as [|? ? HA' BA2]; subst. inversion BA2 as [|? ? HB' _]; subst.
  unfold checksum in E. rewrite !fold_left_app in E.
  assert (W : word (fold_left crc_byte p 7439)) by (apply fold_word; [unfold word; lia|exact BP]). revert E W. generalize (fold_left crc_byte p 7439). intros c E W. cbn [fold_left] in E.
  apply (two_bytes c a b a' b' W HA HB HA' HB'). apply (fold_inj q); [repeat apply crc_byte_word; assumption|repeat apply crc_byte_word; assumption|exact BQ|exact E].
Qed.

(** parity *)
Definition ones (bs : list Z) : bool := fold_left xorb (bits_of bs) false.
Lemma fold_xorb l : forall b, fold_left xorb l b = xorb b (fold_left xorb l false).
Proof. induction l as [|x l IH]; intros b; [cbn; rewrite xorb_false_r; reflexivity|]. cbn [fold_left]. rewrite (IH (xorb b x)), (IH (xorb false x)), xorb_false_l, xorb_assoc. reflexivity. Qed.
Lemma parity_table : forallb (fun a => forallb (fun b => eqb (parity16 (256 * a + b)) (xorb (ones [a]) (ones [b]))) low_bytes) low_bytes = true.
Proof. vm_compute. reflexivity. Qed.
Lemma parity_parts a b : 0 <= a < 256 -> 0 <= b < 256 -> parity16 (256 * a + b) = xorb (ones [a]) (ones [b]).
Proof. intros A B. pose proof parity_table as T. rewrite forallb_forall in T. specialize (T a (in_low a A)). rewrite forallb_forall in T. specialize (T b (in_low b B)). apply eqb_prop. exact T. Qed.
Lemma ones_lxor_table : forallb (fun a => forallb (fun b => eqb (ones [Z.lxor a b]) (xorb (ones [a]) (ones [b]))) low_bytes) low_bytes = true.
Proof. vm_compute. reflexivity. Qed.
Lemma ones_lxor a b : 0 <= a < 256 -> 0 <= b < 256 -> ones [Z.lxor a b] = xorb (ones [a]) (ones [b]).
Proof. intros A B. pose proof ones_lxor_table as T. rewrite forallb_forall in T. specialize (T a (in_low a A)). rewrite forallb_forall in T. specialize (T b (in_low b B)). apply eqb_prop. exact T. Qed.
Lemma ones_cons b bs : ones (b :: bs) = xorb (ones [b]) (ones bs).
Proof. unfold ones. rewrite bits_of_cons, bits_of_single, fold_left_app, fold_xorb. reflexivity. Qed.
Transparent crc_byte.
Lemma crc_byte_parity c d : word c -> 0 <= d < 256 -> parity16 (crc_byte c d) = xorb (parity16 c) (ones [d]).
Proof.
  intros W D. destruct (word_parts c W) as [A B]. unfold crc_byte. rewrite lxor_high. fold (F (256 * Z.lxor (c / 256) d + c mod 256)).
  destruct (F_ok _ _ (lxor_byte _ _ A D) B) as [_ ->]. rewrite parity_parts by (try apply lxor_byte; assumption). rewrite ones_lxor by assumption.
  rewrite (Z.div_mod c 256) at 3 by lia. rewrite parity_parts by assumption. rewrite !xorb_assoc. f_equal. apply xorb_comm.
Qed.
Opaque crc_byte.
Lemma checksum_parity bs : bytes_ok bs -> parity16 (checksum bs) = xorb (parity16 7439) (ones bs).
Proof.
  unfold checksum. assert (W : word 7439) by (unfold word; lia). revert W. generalize 7439. induction bs as [|b bs IH]; intros c W B; [cbn [fold_left]; unfold ones; cbn; rewrite xorb_false_r; reflexivity|].
  inversion B; subst. cbn [fold_left]. rewrite IH by (try apply crc_byte_word; assumption). rewrite crc_byte_parity by assumption. rewrite (ones_cons b bs), xorb_assoc. reflexivity.
Qed.
Lemma same_parity a b : bytes_ok a -> bytes_ok b -> checksum a = checksum b -> ones a = ones b.
Proof. intros A B E. pose proof (checksum_parity a A) as PA. pose proof (checksum_parity b B) as PB. rewrite E in PA. rewrite PA in PB. destruct (parity16 7439), (ones a), (ones b); cbn in PB; congruence. Qed.
