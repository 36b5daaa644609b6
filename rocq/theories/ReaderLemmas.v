(** The bit reader refines "consume a prefix of the remaining bits". *)
From Coq Require Import ZArith List Bool Lia ZifyBool ZifyNat.
From Verif Require Import Py BitStream SpecBits BitLemmas.
Import ListNotations.
Open Scope Z_scope.
Local Ltac Zify.zify_post_hook ::= Z.div_mod_to_equations.

(** the bits not yet consumed *)
Definition rest (r : reader) : list bool := skipn (Z.to_nat (r_pos r)) (bits_of (r_val r)).
Definition rok (r : reader) : Prop := bytes_ok (r_val r) /\ 0 <= r_pos r <= 8 * zlen (r_val r).
Definition aligned (r : reader) : Prop := r_pos r mod 8 = 0.

Lemma zlen_app {A} (a b : list A) : zlen (a ++ b) = zlen a + zlen b.
Proof. unfold zlen. rewrite app_length. lia. Qed.
Lemma zlen_nonneg {A} (a : list A) : 0 <= zlen a.
Proof. unfold zlen. lia. Qed.
Lemma zlen_cons {A} (x : A) l : zlen (x :: l) = 1 + zlen l.
Proof. unfold zlen. cbn [length]. lia. Qed.

Lemma startByte_div r : 0 <= r_pos r -> startByte r = r_pos r / 8.
Proof. intros. unfold startByte. apply Z.quot_div_nonneg; lia. Qed.

Lemma rest_length r : rok r -> Z.of_nat (length (rest r)) = 8 * zlen (r_val r) - r_pos r.
Proof.
  intros [H1 H2]. unfold rest. rewrite skipn_length, bits_of_length. unfold zlen in *. lia.
Qed.

Lemma rest_nil_iff r : rok r -> (bytesLeft r = 0 <-> rest r = []).
Proof.
  intros H. pose proof (rest_length r H) as HL. destruct H as [H1 H2].
  unfold bytesLeft. rewrite startByte_div by lia. split; intros E.
  - destruct (rest r); [reflexivity|]. cbn [length] in HL. lia.
  - rewrite E in HL. cbn [length] in HL. lia.
Qed.

Lemma bytesLeft_pos r : rok r -> 0 <= bytesLeft r.
Proof. intros [H1 H2]. unfold bytesLeft. rewrite startByte_div by lia. lia. Qed.

Lemma aligned_bytesLeft r : rok r -> aligned r -> Z.of_nat (length (rest r)) = 8 * bytesLeft r.
Proof.
  intros H A. rewrite rest_length by exact H. destruct H as [H1 H2]. unfold bytesLeft, aligned in *.
  rewrite startByte_div by lia. lia.
Qed.

(** an aligned reader splits its buffer *)
Lemma aligned_view r : rok r -> aligned r ->
  exists pre post, r_val r = pre ++ post /\ r_pos r = 8 * zlen pre /\ rest r = bits_of post
                   /\ bytes_ok pre /\ bytes_ok post.
Proof.
  intros [H1 H2] A. unfold aligned in A.
  exists (firstn (Z.to_nat (r_pos r / 8)) (r_val r)), (skipn (Z.to_nat (r_pos r / 8)) (r_val r)).
  assert (L : zlen (firstn (Z.to_nat (r_pos r / 8)) (r_val r)) = r_pos r / 8).
  { unfold zlen in *. rewrite firstn_length. lia. }
  split; [symmetry; apply firstn_skipn|]. split; [rewrite L; lia|].
  pose proof (firstn_skipn (Z.to_nat (r_pos r / 8)) (r_val r)) as E.
  split.
  - unfold rest. rewrite <- E at 1. rewrite bits_of_app, skipn_app.
    rewrite skipn_all2 by (rewrite bits_of_length; unfold zlen in *; lia).
    rewrite bits_of_length. replace (_ - _)%nat with 0%nat by (unfold zlen in *; lia). reflexivity.
  - rewrite <- E in H1. apply bytes_ok_app in H1. exact H1.
Qed.

Lemma slice_mid {A} (pre mid post : list A) :
  pyslice (pre ++ mid ++ post) (zlen pre) (zlen pre + zlen mid) = mid.
Proof.
  unfold pyslice, slice_index. rewrite !zlen_app.
  pose proof (zlen_nonneg pre). pose proof (zlen_nonneg mid). pose proof (zlen_nonneg post).
  destruct (Z.ltb_spec (zlen pre) 0); [lia|].
  destruct (Z.ltb_spec (zlen pre + zlen mid) 0); [lia|].
  rewrite !Z.min_l by lia.
  replace (Z.to_nat (zlen pre)) with (length pre) by (unfold zlen; lia).
  rewrite skipn_app, skipn_all, Nat.sub_diag. cbn [skipn app].
  replace (Z.to_nat _) with (length mid) by (unfold zlen; lia).
  rewrite firstn_app, firstn_all, Nat.sub_diag. cbn [firstn]. apply app_nil_r.
Qed.

Lemma bits_prefix (n : nat) post b t :
  bits_of post = b ++ t -> length b = (8 * n)%nat ->
  exists m p, post = m ++ p /\ length m = n /\ bits_of m = b /\ bits_of p = t.
Proof.
  intros E L. exists (firstn n post), (skipn n post).
  assert (n <= length post)%nat.
  { apply (f_equal (@length bool)) in E. rewrite app_length, bits_of_length in E. lia. }
  assert (length (firstn n post) = n) by (rewrite firstn_length; lia).
  split; [symmetry; apply firstn_skipn|]. split; [assumption|].
  apply app_eq_len; [rewrite bits_of_length; lia|].
  rewrite <- bits_of_app, firstn_skipn. exact E.
Qed.

Lemma skipn_skipn' {A} a b (l : list A) : skipn a (skipn b l) = skipn (b + a) l.
Proof.
  revert l; induction b; intros; [reflexivity|]. destruct l; [rewrite !skipn_nil; reflexivity|]. cbn. apply IHb.
Qed.

Lemma rest_advance r k : 0 <= k -> rok r -> k <= Z.of_nat (length (rest r)) ->
  rok (advance k r) /\ rest (advance k r) = skipn (Z.to_nat k) (rest r).
Proof.
  intros Hk H L. rewrite rest_length in L by exact H. destruct H as [H1 H2]. split.
  - split; cbn; [exact H1|]. lia.
  - unfold rest. cbn. rewrite skipn_skipn'. f_equal. lia.
Qed.

(** reading whole bytes *)
Lemma rvalue_ok k r b t : 0 <= k -> rok r -> aligned r -> rest r = b ++ t -> Z.of_nat (length b) = 8 * k ->
  exists bs, rvalue k r = Ok (bs, advance (k * 8) r) /\ bytes_ok bs /\ bits_of bs = b /\ zlen bs = k
             /\ rok (advance (k * 8) r) /\ aligned (advance (k * 8) r) /\ rest (advance (k * 8) r) = t.
Proof.
  intros Hk H A E L.
  destruct (aligned_view r H A) as (pre & post & E1 & E2 & E3 & B1 & B2).
  rewrite E3 in E. destruct (bits_prefix (Z.to_nat k) post b t E) as (m & p & -> & Lm & Em & Ep); [lia|].
  exists m.
  assert (zlen m = k) by (unfold zlen; lia).
  assert (S : startByte r = zlen pre). { rewrite startByte_div by (destruct H; lia). rewrite E2. pose proof (zlen_nonneg pre); lia. }
  split; [|split; [|split; [|split; [|split; [|split]]]]].
  - unfold rvalue. rewrite S, E1, !zlen_app. destruct (Z.gtb_spec (zlen pre + k) (zlen pre + (zlen m + zlen p))).
    { pose proof (zlen_nonneg p); lia. }
    rewrite <- H0. rewrite slice_mid. reflexivity.
  - apply bytes_ok_app in B2. tauto.
  - exact Em.
  - assumption.
  - apply rest_advance; [lia|exact H|]. rewrite E3, E, app_length. lia.
  - unfold aligned, advance in *; cbn. lia.
  - destruct (rest_advance r (k * 8)) as [_ ->]; [lia|exact H|rewrite E3, E, app_length; lia|].
    rewrite E3, E. rewrite skipn_app. rewrite skipn_all2 by lia.
    replace (Z.to_nat (k * 8) - length b)%nat with 0%nat by lia. reflexivity.
Qed.

Lemma rvalue_eof k r : rok r -> Z.of_nat (length (rest r)) < 8 * k -> aligned r -> rvalue k r = Err EEOF.
Proof.
  intros H L A. unfold rvalue. pose proof (aligned_bytesLeft r H A) as HB. unfold bytesLeft in HB.
  destruct (Z.gtb_spec (startByte r + k) (zlen (r_val r))); [reflexivity|lia].
Qed.

Lemma rbyte_ok r b t : rok r -> aligned r -> rest r = b ++ t -> length b = 8%nat ->
  rbyte r = Ok (num b, advance 8 r) /\ rok (advance 8 r) /\ aligned (advance 8 r) /\ rest (advance 8 r) = t.
Proof.
  intros H A E L. destruct (rvalue_ok 1 r b t) as (bs & E1 & B & EB & Lb & R1 & R2 & R3); try assumption; try lia.
  change (1 * 8) with 8 in *. split; [|auto]. unfold rbyte. rewrite E1. cbn [bind]. rewrite from_bytes_u_num by assumption.
  rewrite EB. reflexivity.
Qed.

Lemma rbyte_eof r : rok r -> aligned r -> rest r = [] -> rbyte r = Err EEOF.
Proof. intros H A E. unfold rbyte. rewrite rvalue_eof; [reflexivity|assumption| |assumption]. rewrite E. cbn. lia. Qed.

(** reading a field inside one byte: finite check over all bytes, offsets and widths *)
Definition sub_bits (b sb n : nat) : bool :=
  (Z.land (Z.shiftr (Z.land (Z.shiftl (Z.of_nat b) (Z.of_nat sb)) 255) (8 - Z.of_nat n)) 255 =?
   num (firstn n (skipn sb (nbits 8 (Z.of_nat b))))).
Lemma sub_bits_sweep :
  forallb (fun b => forallb (fun sb => forallb (fun n => negb (sb + n <=? 8)%nat || sub_bits b sb n)
                                               (seq 1 8)) (seq 0 8)) (seq 0 256) = true.
Proof. vm_compute. reflexivity. Qed.
Lemma sub_bits_ok b sb n : 0 <= b < 256 -> 0 <= sb < 8 -> 1 <= n -> sb + n <= 8 ->
  Z.land (Z.shiftr (Z.land (Z.shiftl b sb) 255) (8 - n)) 255
  = num (firstn (Z.to_nat n) (skipn (Z.to_nat sb) (nbits 8 b))).
Proof.
  intros Hb Hs Hn Hsn. pose proof sub_bits_sweep as S.
  rewrite forallb_forall in S. specialize (S (Z.to_nat b)). rewrite in_seq in S. specialize (S ltac:(lia)).
  rewrite forallb_forall in S. specialize (S (Z.to_nat sb)). rewrite in_seq in S. specialize (S ltac:(lia)).
  rewrite forallb_forall in S. specialize (S (Z.to_nat n)). rewrite in_seq in S. specialize (S ltac:(lia)).
  unfold sub_bits in S. rewrite !Z2Nat.id in S by lia.
  apply orb_prop in S as [S|S]; [lia|]. apply Z.eqb_eq in S. exact S.
Qed.

(** the byte containing the current position *)
Lemma byte_view r : rok r -> rest r <> [] ->
  exists pre b post, r_val r = pre ++ b :: post /\ 0 <= b < 256 /\ zlen pre = r_pos r / 8
     /\ rest r = skipn (Z.to_nat (r_pos r mod 8)) (nbits 8 b) ++ bits_of post.
Proof.
  intros H N. pose proof (rest_length r H) as HL. destruct H as [H1 H2].
  assert (r_pos r < 8 * zlen (r_val r)).
  { destruct (rest r) eqn:E; [congruence|]. cbn [length] in HL. lia. }
  pose proof (firstn_skipn (Z.to_nat (r_pos r / 8)) (r_val r)) as E.
  destruct (skipn (Z.to_nat (r_pos r / 8)) (r_val r)) as [|b post] eqn:E1.
  { apply (f_equal (@length Z)) in E1. rewrite skipn_length in E1. cbn in E1. unfold zlen in *. lia. }
  assert (L : zlen (firstn (Z.to_nat (r_pos r / 8)) (r_val r)) = r_pos r / 8).
  { unfold zlen in *. rewrite firstn_length. lia. }
  exists (firstn (Z.to_nat (r_pos r / 8)) (r_val r)), b, post.
  split; [auto|]. split.
  { rewrite <- E in H1. apply bytes_ok_app in H1 as [_ H1]. inversion H1; assumption. }
  split; [exact L|].
  unfold rest. rewrite <- E at 1. rewrite bits_of_app, bits_of_cons, skipn_app.
  rewrite skipn_all2 by (rewrite bits_of_length; unfold zlen in *; lia).
  rewrite bits_of_length, skipn_app, nbits_length. cbn [app].
  replace (Z.to_nat (r_pos r) - 8 * length (firstn (Z.to_nat (r_pos r / 8)) (r_val r)))%nat
    with (Z.to_nat (r_pos r mod 8)) by (unfold zlen in *; lia).
  replace (Z.to_nat (r_pos r mod 8) - 8)%nat with 0%nat by lia. reflexivity.
Qed.

Lemma rbits_ok n r b t : 1 <= n -> rok r -> r_pos r mod 8 + n <= 8 -> rest r = b ++ t -> Z.of_nat (length b) = n ->
  rbits n r = Ok (num b, advance n r) /\ rok (advance n r) /\ rest (advance n r) = t.
Proof.
  intros Hn H Hb E L.
  assert (N : rest r <> []). { rewrite E. destruct b; cbn in *; [lia|discriminate]. }
  split.
  - destruct (byte_view r H N) as (pre & x & post & E1 & Hx & Lp & E2).
    unfold rbits, peekByte, rbyte, rvalue.
    rewrite startByte_div by (destruct H; lia). rewrite <- Lp.
    rewrite E1, zlen_app, zlen_cons. pose proof (zlen_nonneg post). pose proof (zlen_nonneg pre).
    destruct (Z.gtb_spec (zlen pre + 1) (zlen pre + (1 + zlen post))); [lia|].
    change (x :: post) with ([x] ++ post). change 1 with (zlen [x]) at 1. rewrite slice_mid.
    cbn [bind]. destruct (Z.ltb_spec (8 - n) 0); [lia|].
    unfold from_bytes_u; cbn [fold_left]. change (0 * 256 + x) with x.
    rewrite sub_bits_ok by lia. f_equal. f_equal. f_equal.
    rewrite E2 in E.
    assert (F : firstn (Z.to_nat n) (b ++ t) = b).
    { rewrite firstn_app. rewrite firstn_all2 by lia.
      replace (Z.to_nat n - length b)%nat with 0%nat by lia. cbn. apply app_nil_r. }
    rewrite <- F, <- E, firstn_app, skipn_length, nbits_length.
    replace (Z.to_nat n - (8 - Z.to_nat (r_pos r mod 8)))%nat with 0%nat by lia. cbn [firstn]. rewrite app_nil_r. reflexivity.
  - destruct (rest_advance r n) as [R1 R2]; [lia|exact H|rewrite E, app_length; lia|].
    split; [exact R1|]. rewrite R2, E, skipn_app. rewrite skipn_all2 by lia.
    replace (Z.to_nat n - length b)%nat with 0%nat by lia. reflexivity.
Qed.

(** when there is data left, a field that stays inside its byte can always be read *)
Lemma rest_enough n r : 0 <= n -> rok r -> rest r <> [] -> r_pos r mod 8 + n <= 8 -> n <= Z.of_nat (length (rest r)).
Proof.
  intros Hn H N L. destruct (byte_view r H N) as (pre & x & post & E1 & Hx & Lp & E2).
  rewrite E2, app_length, skipn_length, nbits_length. lia.
Qed.

Lemma rbits_eof n r : rok r -> rest r = [] -> rbits n r = Err EEOF.
Proof.
  intros H E. unfold rbits, peekByte, rbyte, rvalue.
  pose proof (proj2 (rest_nil_iff r H) E) as B. unfold bytesLeft in B.
  destruct (Z.gtb_spec (startByte r + 1) (zlen (r_val r))); [reflexivity|lia].
Qed.

Lemma remaining_ok r : rok r -> aligned r ->
  exists bs, fst (remaining r) = bs /\ bytes_ok bs /\ bits_of bs = rest r.
Proof.
  intros H A. destruct (aligned_view r H A) as (pre & post & E1 & E2 & E3 & B1 & B2).
  exists post. split; [|auto]. unfold remaining. cbn [fst].
  assert (S : startByte r = zlen pre). { rewrite startByte_div by (destruct H; lia). rewrite E2. pose proof (zlen_nonneg pre); lia. }
  rewrite S, E1, zlen_app. rewrite <- (app_nil_r post) at 1. apply slice_mid.
Qed.

Lemma new_reader_ok bs : bytes_ok bs -> rok (new_reader bs) /\ aligned (new_reader bs) /\ rest (new_reader bs) = bits_of bs.
Proof.
  intros H. split; [|split]; [split; cbn; [exact H|pose proof (zlen_nonneg bs); lia]|reflexivity|reflexivity].
Qed.
