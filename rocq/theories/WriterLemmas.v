(** The bit writer appends the bits of what is written. *)
From Coq Require Import ZArith List Bool Lia ZifyBool ZifyNat.
From Verif Require Import Py BitStream SpecBits BitLemmas ReaderLemmas.
Import ListNotations.
Open Scope Z_scope.
Local Ltac Zify.zify_post_hook ::= Z.div_mod_to_equations.

(** [b] is what has been written so far; the rest of the last byte is zero *)
Definition winv (w : writer) (b : list bool) : Prop :=
  bytes_ok (w_buf w) /\ 0 <= w_start w < 8 /\ Z.of_nat (length b) mod 8 = w_start w /\
  bits_of (w_buf w) = b ++ repeat false (Z.to_nat ((8 - w_start w) mod 8)).

Lemma winv_new : winv new_writer [].
Proof. unfold winv, new_writer; cbn. repeat split; try lia. constructor. Qed.

(** finite check: adding a field to a byte whose unused bits are zero *)
Fixpoint bl_eqb (a b : list bool) : bool :=
  match a, b with
  | [], [] => true
  | x :: a', y :: b' => Bool.eqb x y && bl_eqb a' b'
  | _, _ => false
  end.
Lemma bl_eqb_eq a b : bl_eqb a b = true -> a = b.
Proof.
  revert b; induction a; destruct b; cbn; intros; try discriminate; [reflexivity|].
  apply andb_prop in H as [H1 H2]. apply Bool.eqb_prop in H1. f_equal; auto.
Qed.
Definition put_check (s n hi v : nat) : bool :=
  let byte := Z.of_nat hi * 2 ^ (8 - Z.of_nat s) in
  let nb := Z.lor byte (Z.shiftl (Z.of_nat v) (8 - Z.of_nat s - Z.of_nat n)) in
  is_byte nb &&
  bl_eqb (nbits 8 nb) (nbits s (Z.of_nat hi) ++ nbits n (Z.of_nat v) ++ repeat false (8 - s - n)).
Lemma put_sweep :
  forallb (fun s => forallb (fun n => (8 <? s + n)%nat ||
     forallb (fun hi => forallb (fun v => put_check s n hi v) (seq 0 (2 ^ n))) (seq 0 (2 ^ s)))
     (seq 1 8)) (seq 0 8) = true.
Proof. vm_compute. reflexivity. Qed.
Lemma put_ok s n hi v :
  0 <= s < 8 -> 1 <= n -> s + n <= 8 -> 0 <= hi < 2 ^ s -> 0 <= v < 2 ^ n ->
  let nb := Z.lor (hi * 2 ^ (8 - s)) (Z.shiftl v (8 - s - n)) in
  0 <= nb < 256 /\
  nbits 8 nb = nbits (Z.to_nat s) hi ++ nbits (Z.to_nat n) v ++ repeat false (Z.to_nat (8 - s - n)).
Proof.
  intros Hs Hn Hsn Hhi Hv nb. pose proof put_sweep as S.
  rewrite forallb_forall in S. specialize (S (Z.to_nat s)). rewrite in_seq in S. specialize (S ltac:(lia)).
  rewrite forallb_forall in S. specialize (S (Z.to_nat n)). rewrite in_seq in S. specialize (S ltac:(lia)).
  apply orb_prop in S as [S|S]; [lia|].
  assert (P : forall k x, 0 <= x < 2 ^ k -> 0 <= k -> (Z.to_nat x < 2 ^ Z.to_nat k)%nat).
  { intros k x Hx Hk. apply Nat2Z.inj_lt. rewrite Z2Nat.id by lia. rewrite Nat2Z.inj_pow, Z2Nat.id by lia. exact (proj2 Hx). }
  rewrite forallb_forall in S. specialize (S (Z.to_nat hi)). rewrite in_seq in S.
  specialize (S ltac:(split; [lia|apply P; lia])).
  rewrite forallb_forall in S. specialize (S (Z.to_nat v)). rewrite in_seq in S.
  specialize (S ltac:(split; [lia|apply P; lia])).
  unfold put_check in S. rewrite !Z2Nat.id in S by lia. apply andb_prop in S as [S1 S2].
  apply is_byte_spec in S1. apply bl_eqb_eq in S2. split; [exact S1|].
  unfold nb. rewrite S2. f_equal. f_equal. f_equal. lia.
Qed.

Lemma num_zeros n : num (repeat false n) = 0.
Proof. induction n; [reflexivity|]. cbn [repeat]. rewrite num_cons, IHn. reflexivity. Qed.

Lemma bits_of_last buf b s :
  bytes_ok buf -> 0 < s < 8 -> Z.of_nat (length b) mod 8 = s ->
  bits_of buf = b ++ repeat false (Z.to_nat (8 - s)) ->
  exists pre x hi b0, buf = pre ++ [x] /\ 0 <= hi < 2 ^ s /\ x = hi * 2 ^ (8 - s) /\ bytes_ok pre
     /\ b = b0 ++ nbits (Z.to_nat s) hi /\ bits_of pre = b0.
Proof.
  intros Hb Hs Hl E.
  destruct buf as [|y ys] using rev_ind.
  { apply (f_equal (@length bool)) in E. rewrite app_length, repeat_length in E. cbn in E. lia. }
  clear IHys. rename y into x. rename ys into pre.
  apply bytes_ok_app in Hb as [Hp Hx]. pose proof (Forall_inv Hx) as Hx1. cbn beta in Hx1.
  rewrite bits_of_app, bits_of_single in E.
  assert (Lb : (length b = 8 * length pre + Z.to_nat s)%nat).
  { apply (f_equal (@length bool)) in E. rewrite !app_length, repeat_length, bits_of_length, nbits_length in E. lia. }
  exists pre, x, (x / 2 ^ (8 - s)), (bits_of pre).
  assert (E2 : nbits 8 x = skipn (8 * length pre) b ++ repeat false (Z.to_nat (8 - s))
               /\ bits_of pre = firstn (8 * length pre) b).
  { rewrite <- (firstn_skipn (8 * length pre) b) in E. rewrite <- app_assoc in E.
    apply app_eq_len in E; [|rewrite bits_of_length, firstn_length; lia]. tauto. }
  destruct E2 as [E2 E3].
  set (c := skipn (8 * length pre) b) in *.
  assert (Lc : length c = Z.to_nat s) by (unfold c; rewrite skipn_length; lia).
  assert (X : x = num c * 2 ^ (8 - s)).
  { rewrite <- (num_nbits_small 8 x) by (change (2 ^ Z.of_nat 8) with 256; lia).
    rewrite E2, num_app, repeat_length.
    replace (num (repeat false (Z.to_nat (8 - s)))) with 0.
    2:{ symmetry. apply num_zeros. }
    rewrite Z2Nat.id by lia. lia. }
  assert (D : x / 2 ^ (8 - s) = num c) by (rewrite X; apply Z.div_mul; lia).
  pose proof (num_range c) as R. rewrite Lc, Z2Nat.id in R by lia.
  split; [reflexivity|]. rewrite D. split; [exact R|]. split; [exact X|]. split; [exact Hp|].
  split; [|reflexivity]. rewrite <- Lc, nbits_num, E3. unfold c. symmetry. apply firstn_skipn.
Qed.

Lemma removelast_snoc {A} (l : list A) x : removelast (l ++ [x]) = l.
Proof. apply removelast_last. Qed.
Lemma last_snoc {A} (l : list A) x d : last (l ++ [x]) d = x.
Proof. apply last_last. Qed.

Lemma addBits_ok z n w b :
  winv w b -> 1 <= n -> w_start w + n <= 8 -> 0 <= z < 2 ^ n ->
  exists w', addBits z n w = Ok w' /\ winv w' (b ++ nbits (Z.to_nat n) z) /\ w_start w' = (w_start w + n) mod 8.
Proof.
  intros (B & S & L & E) Hn Hsn Hz. unfold addBits.
  destruct (Z.ltb_spec (8 - w_start w - n) 0); [lia|].
  destruct (Z.eqb_spec (w_start w) 0) as [E0|E0].
  - rewrite E0 in *. change (Z.to_nat ((8 - 0) mod 8)) with 0%nat in E. cbn [repeat] in E. rewrite app_nil_r in E.
    pose proof (put_ok 0 n 0 z ltac:(lia) Hn ltac:(lia) ltac:(lia) Hz) as P. cbn zeta in P.
    change (0 * 2 ^ (8 - 0)) with 0 in P. destruct P as [P1 P2].
    rewrite (proj2 (is_byte_spec _) P1). rewrite removelast_snoc.
    eexists. split; [reflexivity|]. split; [|reflexivity]. unfold winv; cbn [w_buf w_start].
    split; [apply bytes_ok_app; split; [exact B|constructor; [exact P1|constructor]]|].
    split; [lia|]. split. { rewrite app_length, nbits_length. lia. }
    rewrite bits_of_app, bits_of_single, E, P2. change (nbits (Z.to_nat 0) 0) with (@nil bool). cbn [app].
    rewrite <- app_assoc. f_equal. f_equal. f_equal.
    destruct (Z.eq_dec n 8) as [->|]; [reflexivity|]. rewrite (Z.mod_small (0 + n)) by lia. rewrite Z.mod_small by lia. lia.
  - rewrite Z.mod_small in E by lia.
    destruct (bits_of_last (w_buf w) b (w_start w)) as (pre & x & hi & b0 & E1 & Hhi & Hx & Bp & Eb & Ep); try assumption; try lia.
    pose proof (put_ok (w_start w) n hi z ltac:(lia) Hn ltac:(lia) Hhi Hz) as P. cbn zeta in P.
    rewrite <- Hx in P. destruct P as [P1 P2].
    rewrite E1, last_snoc, removelast_snoc. rewrite (proj2 (is_byte_spec _) P1).
    eexists. split; [reflexivity|]. split; [|reflexivity]. unfold winv; cbn [w_buf w_start].
    split; [apply bytes_ok_app; split; [exact Bp|constructor; [exact P1|constructor]]|].
    split; [lia|]. split. { rewrite app_length, nbits_length. lia. }
    rewrite bits_of_app, bits_of_single, Ep, P2, Eb, <- !app_assoc. f_equal. f_equal. f_equal. f_equal.
    destruct (Z.eq_dec (w_start w + n) 8) as [E8|].
    + rewrite E8. replace (8 - w_start w - n) with 0 by lia. reflexivity.
    + rewrite (Z.mod_small (w_start w + n)) by lia. rewrite Z.mod_small by lia. lia.
Qed.

Lemma to_bytes_ok sg size z : fits sg size z -> to_bytes z (Z.of_nat size) sg = Ok (be_bytes size z).
Proof.
  intros F. unfold to_bytes, fits in *. destruct (Z.ltb_spec (Z.of_nat size) 0); [lia|].
  rewrite Nat2Z.id. destruct sg.
  - destruct (Z.eqb_spec (Z.of_nat size) 0).
    + destruct F as [[_ ->]|[F _]]; [reflexivity|lia].
    + destruct F as [[F _]|[_ F]]; [lia|].
      destruct (Z.leb_spec (- 2 ^ (8 * Z.of_nat size - 1)) z); [|lia].
      destruct (Z.ltb_spec z (2 ^ (8 * Z.of_nat size - 1))); [reflexivity|lia].
  - destruct (Z.leb_spec 0 z); [|lia]. destruct (Z.ltb_spec z (2 ^ (8 * Z.of_nat size))); [reflexivity|lia].
Qed.

Lemma to_bytes_overflow sg size z : ~ fits sg size z -> to_bytes z (Z.of_nat size) sg = Err EOverflow.
Proof.
  intros F. unfold to_bytes, fits in *. destruct (Z.ltb_spec (Z.of_nat size) 0); [lia|].
  destruct sg.
  - destruct (Z.eqb_spec (Z.of_nat size) 0).
    + destruct (Z.eqb_spec z 0); [|reflexivity]. exfalso. apply F. left. lia.
    + destruct (Z.leb_spec (- 2 ^ (8 * Z.of_nat size - 1)) z); [|reflexivity].
      destruct (Z.ltb_spec z (2 ^ (8 * Z.of_nat size - 1))); [|reflexivity]. exfalso. apply F. right. lia.
  - destruct (Z.leb_spec 0 z); [|reflexivity]. destruct (Z.ltb_spec z (2 ^ (8 * Z.of_nat size))); [|reflexivity]. exfalso; auto.
Qed.

Lemma winv_aligned w b : winv w b -> w_start w = 0 -> bits_of (w_buf w) = b.
Proof. intros (B & S & L & E) E0. rewrite E0 in E. cbn in E. rewrite app_nil_r in E. exact E. Qed.

Lemma winv_of_bits buf b : bytes_ok buf -> bits_of buf = b -> winv (mkW buf 0) b.
Proof.
  intros B E. unfold winv; cbn [w_buf w_start]. split; [exact B|]. split; [lia|]. split.
  - rewrite <- E, bits_of_length. lia.
  - cbn. rewrite app_nil_r. exact E.
Qed.

Lemma addBytes_ok sg size z w b :
  winv w b -> w_start w = 0 -> fits sg size z ->
  exists w', addBytes z (Z.of_nat size) sg w = Ok w' /\ winv w' (b ++ nbits (8 * size) z) /\ w_start w' = 0.
Proof.
  intros W S F. unfold addBytes. rewrite (to_bytes_ok _ _ _ F). cbn [bind].
  eexists; split; [reflexivity|]. split; [|reflexivity].
  pose proof (winv_aligned _ _ W S) as E. destruct W as (B & _).
  apply winv_of_bits.
  - apply bytes_ok_app. split; [exact B|apply be_bytes_ok].
  - rewrite bits_of_app, E, be_bytes_bits. reflexivity.
Qed.

Lemma wextend_ok bs w b :
  winv w b -> w_start w = 0 -> bytes_ok bs ->
  exists w', wextend bs w = Ok w' /\ winv w' (b ++ bits_of bs) /\ w_start w' = 0.
Proof.
  intros W S F. unfold wextend. rewrite (proj2 (forallb_bytes bs) F).
  eexists; split; [reflexivity|]. cbn [w_start]. split; [|exact S].
  pose proof (winv_aligned _ _ W S) as E. destruct W as (B & _). rewrite S.
  apply winv_of_bits.
  - apply bytes_ok_app. split; assumption.
  - rewrite bits_of_app, E. reflexivity.
Qed.

Lemma winv_inj w w' b : winv w b -> winv w' b -> w_start w = w_start w' -> w = w'.
Proof.
  intros (B & S & L & E) (B' & S' & L' & E') ES. rewrite <- ES in E'.
  assert (w_buf w = w_buf w') by (apply bits_of_inj; congruence).
  destruct w, w'; cbn in *; congruence.
Qed.
