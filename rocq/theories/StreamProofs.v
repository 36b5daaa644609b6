(** Proofs for C08: reading whole bytes and all that is left. *)
From Coq Require Import ZArith List Bool Lia ZifyBool ZifyNat.
From Verif Require Import Py BitStream ReaderLemmas.
Import ListNotations.
Open Scope Z_scope.
Local Ltac Zify.zify_post_hook ::= Z.div_mod_to_equations.

Lemma slice_at {A} (l : list A) i j : 0 <= i <= j -> j <= zlen l -> pyslice l i j = firstn (Z.to_nat (j - i)) (skipn (Z.to_nat i) l).
Proof.
  intros H L. unfold pyslice, slice_index. destruct (Z.ltb_spec i 0); [lia|]. destruct (Z.ltb_spec j 0); [lia|]. rewrite !Z.min_l by lia. reflexivity.
Qed.
(** whole bytes *)
Lemma value_at bs p n : 0 <= p -> 0 <= n ->
  rvalue n (mkR bs p) = if p / 8 + n <=? zlen bs then Ok (firstn (Z.to_nat n) (skipn (Z.to_nat (p / 8)) bs), mkR bs (p + 8 * n)) else Err EEOF.
Proof.
  intros P N. unfold rvalue. rewrite startByte_div by exact P. cbn [r_pos r_val]. unfold advance. cbn [r_pos r_val].
  destruct (Z.gtb_spec (p / 8 + n) (zlen bs)); destruct (Z.leb_spec (p / 8 + n) (zlen bs)); try lia; [reflexivity|].
  rewrite slice_at by lia. replace (p / 8 + n - p / 8) with n by lia. replace (n * 8) with (8 * n) by lia. reflexivity.
Qed.
(** bits of one byte *)
Lemma past_bits bs p n : 0 <= p -> zlen bs <= p / 8 -> rbits n (mkR bs p) = Err EEOF.
Proof.
  intros P L. unfold rbits, peekByte, rbyte. rewrite value_at by lia. destruct (Z.leb_spec (p / 8 + 1) (zlen bs)); [lia|]. reflexivity.
Qed.
(** all that is left *)
Lemma remaining_at bs p out r' : 0 <= p -> remaining (mkR bs p) = (out, r') ->
  out = skipn (Z.to_nat (p / 8)) bs /\ (forall n, 0 < n -> rvalue n r' = Err EEOF) /\ (forall n, rbits n r' = Err EEOF) /\ bytesLeft r' <= 0.
Proof.
  intros P E. unfold remaining in E. rewrite startByte_div in E by exact P. cbn [r_pos r_val] in E. unfold advance in E. cbn [r_pos r_val] in E. injection E as <- <-. pose proof (zlen_nonneg bs) as ZN.
  split; [|split; [|split]].
  - unfold pyslice, slice_index. destruct (Z.ltb_spec (p / 8) 0); [lia|]. destruct (Z.ltb_spec (zlen bs) 0); [lia|]. rewrite Z.min_id.
    destruct (Z.leb_spec (p / 8) (zlen bs)).
    + rewrite Z.min_l by lia. apply firstn_all2. rewrite skipn_length. unfold zlen in *. lia.
    + rewrite Z.min_r by lia. rewrite !skipn_all2 by (unfold zlen in *; lia). apply firstn_nil.
  - intros n N. rewrite value_at by lia. destruct (Z.leb_spec ((p + zlen bs * 8) / 8 + n) (zlen bs)); [lia|reflexivity].
  - intros n. apply past_bits; lia.
  - unfold bytesLeft. rewrite startByte_div by (cbn; lia). cbn [r_pos r_val]. lia.
Qed.
