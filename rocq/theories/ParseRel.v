(** Two decoder runs side by side: one on a frame, one on the same frame behind some other bytes, with possibly
    different recursion allowance.  They give the same message, and both only raise the expected exceptions. *)
From Coq Require Import String ZArith List Bool Lia ZifyBool ZifyNat.
From Verif Require Import Py BitStream Schema Registry Codec SpecBits BitLemmas ReaderLemmas SpecDecode SpecTotal
  EncodeProofs DecodeLemmas DecodeProofs.
Import ListNotations.
Open Scope list_scope.
Open Scope Z_scope.
Local Ltac Zify.zify_post_hook ::= Z.div_mod_to_equations.

Section Rel.
  Variable pre : list Z.

  Definition sim (r r' : reader) : Prop :=
    r_val r = pre ++ r_val r' /\ r_pos r = 8 * zlen pre + r_pos r' /\ rok r'.

  Definition rel {A} (P : A -> reader -> reader -> Prop) (x y : res (A * reader)) : Prop :=
    match x, y with
    | Ok (a, r), Ok (b, r') => a = b /\ P a r r'
    | Err e, Err e' => e = e' /\ decode_error e
    | _, _ => False
    end.

  Lemma rel_bind {A B} (P : A -> reader -> reader -> Prop) (Q : B -> reader -> reader -> Prop) x y f g :
    rel P x y -> (forall a r r', P a r r' -> rel Q (f (a, r)) (g (a, r'))) -> rel Q (bind x f) (bind y g).
  Proof.
    intros H HF. destruct x as [[a r]|e], y as [[b r']|e']; cbn in *; try contradiction; [|exact H].
    destruct H as [<- H]. apply HF. exact H.
  Qed.
  Lemma rel_mono {A} (P Q : A -> reader -> reader -> Prop) x y :
    (forall a r r', P a r r' -> Q a r r') -> rel P x y -> rel Q x y.
  Proof. intros H R. destruct x as [[a r]|e], y as [[b r']|e']; cbn in *; try contradiction; [|exact R]. destruct R; auto. Qed.
  Lemma rel_err {A} (P : A -> reader -> reader -> Prop) e : decode_error e -> rel P (Err e) (Err e).
  Proof. cbn. auto. Qed.
  Lemma de_eof : decode_error EEOF. Proof. unfold decode_error. auto. Qed.
  Lemma de_value : decode_error EValue. Proof. unfold decode_error. auto. Qed.
  Lemma de_attr : decode_error EAttribute. Proof. unfold decode_error. auto. Qed.
  Lemma de_index : decode_error EIndex. Proof. unfold decode_error. auto. Qed.
  Lemma de_uni : decode_error EUnicode. Proof. unfold decode_error. auto 6. Qed.

  Lemma sim_start r r' : sim r r' -> startByte r = zlen pre + startByte r' /\ 0 <= startByte r' <= zlen (r_val r').
  Proof.
    intros (E1 & E2 & B & P). pose proof (zlen_nonneg pre).
    rewrite !startByte_div by lia. rewrite E2. lia.
  Qed.
  Lemma sim_left r r' : sim r r' -> bytesLeft r = bytesLeft r' /\ 0 <= bytesLeft r'.
  Proof.
    intros H. destruct (sim_start r r' H). destruct H as (E1 & E2 & B & P). unfold bytesLeft. rewrite E1, zlen_app. lia.
  Qed.
  Lemma slice_shift {A} (p l : list A) a b : 0 <= a -> 0 <= b -> pyslice (p ++ l) (zlen p + a) (zlen p + b) = pyslice l a b.
  Proof.
    intros Ha Hb. unfold pyslice, slice_index. pose proof (zlen_nonneg p). pose proof (zlen_nonneg l). rewrite zlen_app.
    destruct (Z.ltb_spec (zlen p + a) 0); [lia|]. destruct (Z.ltb_spec (zlen p + b) 0); [lia|].
    destruct (Z.ltb_spec a 0); [lia|]. destruct (Z.ltb_spec b 0); [lia|].
    replace (Z.to_nat (Z.min (zlen p + a) (zlen p + zlen l))) with (length p + Z.to_nat (Z.min a (zlen l)))%nat by (unfold zlen; lia).
    rewrite skipn_app. rewrite (skipn_all2 p) by lia. cbn [app].
    f_equal; [lia|]. f_equal. lia.
  Qed.
  Lemma pyslice_bytes (l : list Z) a b : bytes_ok l -> bytes_ok (pyslice l a b).
  Proof.
    intros H. unfold pyslice. assert (forall n (x : list Z), bytes_ok x -> bytes_ok (firstn n x)).
    { intros n x Hx. rewrite <- (firstn_skipn n x) in Hx. apply bytes_ok_app in Hx. apply Hx. }
    apply H0. rewrite <- (firstn_skipn (Z.to_nat (slice_index (zlen l) a)) l) in H. apply bytes_ok_app in H. apply H.
  Qed.
  Lemma pyslice_len {A} (l : list A) a n : 0 <= a -> 0 <= n -> a + n <= zlen l -> zlen (pyslice l a (a + n)) = n.
  Proof.
    intros. unfold pyslice, slice_index. destruct (Z.ltb_spec a 0); [lia|]. destruct (Z.ltb_spec (a + n) 0); [lia|].
    unfold zlen in *. rewrite firstn_length, skipn_length. lia.
  Qed.

  Lemma rel_rvalue k r r' : sim r r' -> aligned r' -> 0 <= startByte r' + k ->
    rel (fun bs q q' => bytes_ok bs /\ (0 <= k -> zlen bs = k) /\ sim q q' /\ aligned q' /\ r_pos q' = r_pos r' + 8 * k
                        /\ r_val q' = r_val r')
        (rvalue k r) (rvalue k r').
  Proof.
    intros H A K. destruct (sim_start r r' H) as [S1 S2]. destruct (sim_left r r' H) as [L1 L2].
    pose proof H as (E1 & E2 & B & P). unfold rvalue. rewrite S1, E1, zlen_app. unfold aligned in A.
    destruct (Z.gtb_spec (startByte r' + k) (zlen (r_val r'))).
    - destruct (Z.gtb_spec (zlen pre + startByte r' + k) (zlen pre + zlen (r_val r'))); [|lia]. apply rel_err, de_eof.
    - destruct (Z.gtb_spec (zlen pre + startByte r' + k) (zlen pre + zlen (r_val r'))); [lia|].
      cbn [rel]. rewrite <- Z.add_assoc, slice_shift by lia.
      split; [reflexivity|]. rewrite startByte_div in * by lia. split; [apply pyslice_bytes; exact B|].
      split; [intros; apply pyslice_len; lia|]. unfold aligned, sim, advance. cbn [r_val r_pos].
      split; [|split; [lia|split; [lia|reflexivity]]]. split; [exact E1|]. split; [lia|]. split; [exact B|]. cbn. lia.
  Qed.
  Lemma rel_rvalue0 k r r' : sim r r' -> aligned r' -> 0 <= k ->
    rel (fun bs q q' => bytes_ok bs /\ zlen bs = k /\ sim q q' /\ aligned q' /\ bytesLeft q' = bytesLeft r' - k
                        /\ r_pos q' = r_pos r' + 8 * k)
        (rvalue k r) (rvalue k r').
  Proof.
    intros H A K. destruct (sim_start r r' H) as [_ S2]. eapply rel_mono; [|apply (rel_rvalue k r r' H A); lia].
    cbn beta. intros bs q q' (B & L & SM & AL & P & V). split; [exact B|]. split; [auto|]. split; [exact SM|]. split; [exact AL|].
    split; [|exact P]. unfold bytesLeft. rewrite V. destruct SM as (_ & _ & _ & PQ). destruct H as (_ & _ & _ & PR).
    rewrite !startByte_div by lia. rewrite P. lia.
  Qed.
  Lemma rel_rbyte r r' : sim r r' -> aligned r' ->
    rel (fun z q q' => 0 <= z < 256 /\ sim q q' /\ aligned q' /\ bytesLeft q' = bytesLeft r' - 1 /\ r_pos q' = r_pos r' + 8)
        (rbyte r) (rbyte r').
  Proof.
    intros H A. unfold rbyte. eapply rel_bind; [apply (rel_rvalue0 1); [exact H|exact A|lia]|].
    cbn beta. intros bs q q' (B & L & SM & AL & LF & P). cbn [rel]. split; [reflexivity|].
    split; [|split; [exact SM|split; [exact AL|split; [exact LF|rewrite P; lia]]]].
    pose proof (from_bytes_u_range bs B). rewrite L in H0. exact H0.
  Qed.
  Lemma rel_rbits n r r' : sim r r' -> 1 <= n -> r_pos r' mod 8 + n <= 8 ->
    rel (fun z q q' => 0 <= z < 2 ^ n /\ sim q q' /\ r_pos q' = r_pos r' + n /\ bytesLeft r' > 0 /\ bytesLeft q' <= bytesLeft r') (rbits n r) (rbits n r').
  Proof.
    intros H Hn L. pose proof (sim_left r r' H) as [SL SL']. pose proof H as (E1 & E2 & R).
    destruct (list_eq_dec Bool.bool_dec (rest r') []) as [E|N].
    - rewrite (rbits_eof n r' R E). pose proof (proj2 (rest_nil_iff r' R) E) as Z0.
      unfold rbits, peekByte, rbyte, rvalue. unfold bytesLeft in SL, Z0.
      destruct (Z.gtb_spec (startByte r + 1) (zlen (r_val r))); [|lia]. cbn [bind]. apply rel_err, de_eof.
    - pose proof (rest_enough n r' ltac:(lia) R N L) as LE.
      destruct (rbits_ok n r' (firstn (Z.to_nat n) (rest r')) (skipn (Z.to_nat n) (rest r')) Hn R L) as (EO & RO & _).
      { symmetry. apply firstn_skipn. } { rewrite firstn_length. lia. }
      rewrite EO. destruct (sim_start r r' H) as [S1 S2].
      assert (EB : peekByte r = peekByte r').
      { unfold peekByte, rbyte, rvalue. rewrite S1, E1, zlen_app.
        destruct (Z.gtb_spec (startByte r' + 1) (zlen (r_val r'))).
        - destruct (Z.gtb_spec (zlen pre + startByte r' + 1) (zlen pre + zlen (r_val r'))); [reflexivity|lia].
        - destruct (Z.gtb_spec (zlen pre + startByte r' + 1) (zlen pre + zlen (r_val r'))); [lia|].
          rewrite <- Z.add_assoc, slice_shift by lia. reflexivity. }
      unfold rbits in EO |- *. rewrite EB. replace (r_pos r mod 8) with (r_pos r' mod 8) by (rewrite E2; pose proof (zlen_nonneg pre); lia).
      destruct (peekByte r') as [b|]; [|discriminate]. cbn [bind] in *. destruct (8 - n <? 0); [discriminate|].
      injection EO as EO. cbn [rel]. split; [exact EO|]. split.
      + rewrite EO. pose proof (num_range (firstn (Z.to_nat n) (rest r'))) as NR. rewrite firstn_length in NR.
        replace (Z.of_nat (Nat.min (Z.to_nat n) (length (rest r')))) with n in NR by lia. exact NR.
      + split; [|split; [reflexivity|]].
        * split; [exact E1|]. split; [|exact RO]. unfold advance; cbn [r_pos]. lia.
        * destruct R as [_ PR]. assert (r_pos r' < 8 * zlen (r_val r')).
          { pose proof (rest_length r' (proj2 (proj2 H))) as RL. lia. }
          unfold bytesLeft, advance. rewrite !startByte_div by (cbn [r_pos]; lia). cbn [r_val r_pos]. lia.
  Qed.
  Lemma rel_remaining r r' : sim r r' -> fst (remaining r) = fst (remaining r') /\ bytes_ok (fst (remaining r'))
    /\ zlen (fst (remaining r')) = bytesLeft r'.
  Proof.
    intros H. destruct (sim_start r r' H) as [S1 S2]. destruct H as (E1 & E2 & B & P). unfold remaining. cbn [fst].
    rewrite S1, E1, zlen_app, slice_shift; [|lia|apply zlen_nonneg]. split; [reflexivity|]. split; [apply pyslice_bytes; exact B|].
    unfold bytesLeft. replace (zlen (r_val r')) with (startByte r' + (zlen (r_val r') - startByte r')) at 1 by lia.
    apply pyslice_len; lia.
  Qed.
End Rel.

Lemma sim_refl r : rok r -> sim [] r r.
Proof. intros R. split; [reflexivity|]. split; [unfold zlen; cbn [length]; lia|exact R]. Qed.
