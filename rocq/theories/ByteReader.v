(** Readers on byte boundaries, and frames that start with fixed size attributes. *)
From Coq Require Import String ZArith List Bool Lia ZifyBool ZifyNat.
From Verif Require Import Py BitStream Schema Registry Codec SpecBits BitLemmas ReaderLemmas SpecDecode SpecTotal
  EncodeProofs DecodeLemmas DecodeProofs CodecProofs ParseRel TotalProofs.
Import ListNotations.
Open Scope list_scope.
Open Scope Z_scope.
Local Ltac Zify.zify_post_hook ::= Z.div_mod_to_equations.

Definition at_ (q bs : list Z) : reader := mkR (q ++ bs) (8 * zlen q).

Lemma at_start q bs : startByte (at_ q bs) = zlen q.
Proof. rewrite startByte_div; unfold at_; cbn [r_pos]; pose proof (zlen_nonneg q); lia. Qed.
Lemma at_left q bs : bytesLeft (at_ q bs) = zlen bs.
Proof. unfold bytesLeft. rewrite at_start. unfold at_. cbn [r_val]. rewrite zlen_app. lia. Qed.
Lemma at_step q xs bs : at_ (q ++ xs) bs = mkR (q ++ xs ++ bs) (8 * zlen q + 8 * zlen xs).
Proof. unfold at_. rewrite <- app_assoc, zlen_app. f_equal. lia. Qed.
Lemma at_value q xs bs n : zlen xs = n -> rvalue n (at_ q (xs ++ bs)) = Ok (xs, at_ (q ++ xs) bs).
Proof.
  intros L. unfold rvalue. rewrite at_start. rewrite at_step. unfold at_ at 1 2. cbn [r_val]. rewrite !zlen_app.
  pose proof (zlen_nonneg bs). destruct (Z.gtb_spec (zlen q + n) (zlen q + (zlen xs + zlen bs))); [lia|].
  rewrite <- L, slice_mid. unfold at_, advance. cbn [r_val r_pos]. do 2 f_equal. f_equal. lia.
Qed.
Lemma at_value_eof q bs n : zlen bs < n -> rvalue n (at_ q bs) = Err EEOF.
Proof.
  intros L. unfold rvalue. rewrite at_start. unfold at_ at 1. cbn [r_val]. rewrite zlen_app.
  destruct (Z.gtb_spec (zlen q + n) (zlen q + zlen bs)); [reflexivity|lia].
Qed.
Lemma at_byte q b bs : rbyte (at_ q (b :: bs)) = Ok (b, at_ (q ++ [b]) bs).
Proof.
  unfold rbyte. change (b :: bs) with ([b] ++ bs). rewrite (at_value q [b] bs 1) by reflexivity. reflexivity.
Qed.
Lemma at_byte_eof q : rbyte (at_ q []) = Err EEOF.
Proof. unfold rbyte. rewrite at_value_eof by (unfold zlen; cbn; lia). reflexivity. Qed.
Lemma at_remaining q bs : fst (remaining (at_ q bs)) = bs.
Proof.
  unfold remaining. cbn [fst]. rewrite at_start. unfold at_. cbn [r_val]. rewrite zlen_app.
  rewrite <- (app_nil_r bs) at 1. apply slice_mid.
Qed.
(** the bits of the byte at the current position, from the [k]-th on *)
Definition mid (q : list Z) (b : Z) (bs : list Z) (k : Z) : reader := mkR (q ++ b :: bs) (8 * zlen q + k).
Lemma mid_0 q b bs : mid q b bs 0 = at_ q (b :: bs).
Proof. unfold mid, at_. f_equal. lia. Qed.
Lemma mid_8 q b bs : mid q b bs 8 = at_ (q ++ [b]) bs.
Proof. unfold mid, at_. rewrite <- app_assoc. cbn [app]. f_equal. rewrite zlen_app. change (zlen [b]) with 1. lia. Qed.
Lemma mid_left q b bs k : 0 <= k < 8 -> bytesLeft (mid q b bs k) = 1 + zlen bs.
Proof.
  intros K. unfold bytesLeft. pose proof (zlen_nonneg q). rewrite startByte_div by (cbn; lia). unfold mid. cbn [r_val r_pos]. rewrite zlen_app, zlen_cons. lia.
Qed.
Lemma sub_sweep :
  forallb (fun b => forallb (fun k => forallb (fun n => negb (k + n <=? 8)%nat ||
     (Z.land (Z.shiftr (Z.land (Z.shiftl (Z.of_nat b) (Z.of_nat k)) 255) (8 - Z.of_nat n)) 255 =?
      (Z.of_nat b / 2 ^ (8 - Z.of_nat k - Z.of_nat n)) mod 2 ^ Z.of_nat n)) (seq 1 8)) (seq 0 8)) (seq 0 256) = true.
Proof. vm_compute. reflexivity. Qed.
Lemma mid_bits q b bs k n : 0 <= b < 256 -> 0 <= k -> 1 <= n -> k + n <= 8 ->
  rbits n (mid q b bs k) = Ok ((b / 2 ^ (8 - k - n)) mod 2 ^ n, mid q b bs (k + n)).
Proof.
  intros B K N KN. pose proof (zlen_nonneg q). unfold rbits.
  assert (PK : peekByte (mid q b bs k) = Ok b).
  { unfold peekByte, rbyte, rvalue. rewrite startByte_div by (cbn; lia). unfold mid. cbn [r_val r_pos].
    replace ((8 * zlen q + k) / 8) with (zlen q) by lia. rewrite zlen_app, zlen_cons. pose proof (zlen_nonneg bs).
    destruct (Z.gtb_spec (zlen q + 1) (zlen q + (1 + zlen bs))); [lia|].
    pose proof (slice_mid q [b] bs) as SM. change (zlen [b]) with 1 in SM. cbn [app] in SM. rewrite SM. reflexivity. }
  rewrite PK. cbn [bind]. unfold mid at 1. cbn [r_pos]. replace ((8 * zlen q + k) mod 8) with k by lia.
  destruct (Z.ltb_spec (8 - n) 0); [lia|].
  replace (advance n (mid q b bs k)) with (mid q b bs (k + n)) by (unfold advance, mid; cbn [r_val r_pos]; f_equal; lia).
  do 2 f_equal.
  pose proof sub_sweep as S. rewrite forallb_forall in S. specialize (S (Z.to_nat b)). rewrite in_seq in S. specialize (S ltac:(lia)).
  rewrite forallb_forall in S. specialize (S (Z.to_nat k)). rewrite in_seq in S. specialize (S ltac:(lia)).
  rewrite forallb_forall in S. specialize (S (Z.to_nat n)). rewrite in_seq in S. specialize (S ltac:(lia)).
  rewrite !Z2Nat.id in S by lia. apply orb_prop in S as [S|S]; [lia|]. apply Z.eqb_eq in S. exact S.
Qed.

(** ** decoding does not depend on the position *)
Lemma at_sim q bs : bytes_ok bs -> sim q (at_ q bs) (new_reader bs).
Proof.
  intros B. split; [reflexivity|]. split; [cbn; lia|]. split; [exact B|]. cbn. pose proof (zlen_nonneg bs). lia.
Qed.
Lemma deserialize_at q cmd f : bytes_ok cmd -> zlen cmd / 2 < Z.of_nat f ->
  match decode cmd with
  | Err e => deserialize f (at_ q cmd) = Err e /\ decode_error e
  | Ok m => (exists r, deserialize f (at_ q cmd) = Ok (m, r)) /\ is_message m = true /\ (depth m <= Z.to_nat (zlen cmd / 2 + 1))%nat
  end.
Proof.
  intros B L. destruct (TotalProofs.new_reader_ok cmd B) as (S0 & A0 & L0). pose proof (zlen_nonneg cmd) as NN.
  set (g := Z.to_nat (zlen cmd / 2 + 1)).
  pose proof (deserialize_rel g f q _ _ (at_sim q cmd B) A0 ltac:(lia) ltac:(lia)) as R1.
  pose proof (deserialize_rel g g q _ _ (at_sim q cmd B) A0 ltac:(lia) ltac:(lia)) as R2.
  pose proof (deserialize_rel g (S (length cmd)) q _ _ (at_sim q cmd B) A0 ltac:(lia) ltac:(unfold zlen in *; lia)) as R3.
  pose proof (deserialize_rel g f [] _ _ S0 A0 ltac:(lia) ltac:(lia)) as R4.
  assert (R5 : rel (fun v _ _ => is_message v = true /\ (depth v <= Z.to_nat (Z.max 0 (bytesLeft (new_reader cmd)) / 2 + 1))%nat)
            (deserialize f (at_ q cmd)) (deserialize (Nat.max f (S (length cmd))) (new_reader cmd)))
    by (apply (deserialize_rel f (Nat.max f (S (length cmd))) q); [apply at_sim; exact B|exact A0|lia|lia]).
  pose proof (deserialize_rel (S (length cmd)) (Nat.max f (S (length cmd))) [] _ _ S0 A0 ltac:(unfold zlen in *; lia) ltac:(lia)) as R6.
  unfold decode. clear R1 R2 R3 R4. rewrite L0 in *. rewrite Z.max_r in R5, R6 by lia.
  destruct (deserialize (Nat.max f (S (length cmd))) (new_reader cmd)) as [[m r]|e], (deserialize (S (length cmd)) (new_reader cmd)) as [[m' r']|e'];
    cbn [rel bind] in *; try contradiction.
  - destruct R6 as [-> [IM DM]]. destruct (deserialize f (at_ q cmd)) as [[m2 r2]|]; [|contradiction]. destruct R5 as [-> _]. eauto.
  - destruct R6 as [-> DE]. destruct (deserialize f (at_ q cmd)) as [[m2 r2]|]; [contradiction|]. destruct R5 as [-> _]. auto.
Qed.

(** ** frames that start with fixed size attributes *)
Lemma cut_full : forall l b1, fixed l = true -> (forall a n, In a l -> width (a_ty a) = Some n -> (0 < n)%nat) -> length b1 = bitsum l ->
  exists cs, length cs = length l /\ forall b2, cut l (b1 ++ b2) = Some cs.
Proof.
  induction l as [|a l IH]; intros b1 F W L; cbn [fixed bitsum] in *.
  - exists []. split; [reflexivity|]. intros b2. destruct (b1 ++ b2); reflexivity.
  - destruct (a_parse a); [discriminate|]. destruct (width (a_ty a)) as [n|] eqn:WA; [|discriminate].
    pose proof (W a n (or_introl eq_refl) WA) as NP.
    destruct (IH (skipn n b1) F) as (cs & LC & C).
    { intros a' n' I'. apply W. right. exact I'. }
    { rewrite skipn_length. lia. }
    exists (firstn n b1 :: cs). split; [cbn; congruence|]. intros b2. cbn [cut].
    destruct (b1 ++ b2) as [|x xs] eqn:E. { apply (f_equal (@length bool)) in E. rewrite app_length in E. cbn in E. lia. }
    rewrite <- E. rewrite WA. destruct (Nat.ltb_spec (length (b1 ++ b2)) n) as [X|X]; [rewrite app_length in X; lia|].
    rewrite skipn_app. replace (n - length b1)%nat with 0%nat by lia. cbn [skipn]. rewrite C.
    rewrite firstn_app. replace (n - length b1)%nat with 0%nat by lia. cbn [firstn]. rewrite app_nil_r. reflexivity.
Qed.

Lemma frame_prefix s pre post p1 p2 : In s registry -> s_attrs s = pre ++ post -> fixed pre = true ->
  bytes_ok p1 -> bytes_ok p2 -> (8 * length p1)%nat = bitsum pre ->
  exists d q cs f, cut pre (bits_of p1) = Some cs /\ stored (s_attrs s) pre cs [] d /\ dict_ok pre d /\ bytes_ok q /\ zlen q = 2 + zlen p1 /\
    f = S (S (length (p1 ++ p2))) /\
    decode (s_cls s :: s_cmd s :: p1 ++ p2) =
      do (d', _) <- parse_attrs (hk2 (deserialize f)) (ds2 (deserialize f)) (s_attrs s) post d (at_ q p2); Ok (VObj (CMsg s) d').
Proof.
  intros Hs EA FX B1 B2 L. destruct (registry_cls_bytes s Hs) as [C1 C2].
  assert (B12 : bytes_ok (p1 ++ p2)) by (apply bytes_ok_app; auto).
  destruct (decode_frame (s_cls s) (s_cmd s) (p1 ++ p2)) as (r2 & R & A & E & P & V & D). { constructor; [exact C1|]. constructor; [exact C2|exact B12]. }
  cbv zeta in D. rewrite <- hid_bytes, lookup_hid in D by exact Hs. set (f := S (S (length (p1 ++ p2)))) in *.
  pose proof (registry_aligned s Hs) as AL. rewrite EA in AL. destruct (al_al_from pre post 0 AL) as (o & AF & _). rewrite <- (aligned_of r2 A) in AF.
  pose proof (parse_fixed (hk2 (deserialize f)) (ds2 (deserialize f))) as PF.
  specialize (PF ltac:(intros t n W; destruct t; cbn in W; try discriminate; reflexivity) (s_attrs s) post pre [] [] r2 o EA).
  pose proof (registry_dup_ok s Hs) as DU. rewrite EA in DU. specialize (PF DU FX AF R ltac:(intros n; reflexivity)).
  destruct (cut_full pre (bits_of p1) FX) as (cs & LC & CU).
  { intros a n IA. apply (registry_positive s a n Hs). rewrite EA. apply in_or_app. left. exact IA. }
  { rewrite bits_of_length. exact L. }
  rewrite E, bits_of_app, CU in PF. destruct PF as (d & r' & ST & R' & DO & [[LL _]|(_ & PE & RE & LE & PP & OO)]); [lia|].
  rewrite LC, firstn_all in DO. cbn [app] in DO.
  assert (A' : aligned r') by (unfold aligned in *; lia).
  destruct (aligned_view r' R' A') as (q & tl & VV & PQ & RQ & BQ & BT).
  assert (tl = p2) as ->.
  { apply bits_of_inj; [exact BT|exact B2|]. rewrite <- RQ, RE, <- L, skipn_app. rewrite skipn_all2 by (rewrite bits_of_length; lia).
    rewrite bits_of_length, Nat.sub_diag. reflexivity. }
  exists d, q, cs, f. split; [rewrite <- (CU []), app_nil_r; reflexivity|]. split; [exact ST|]. split; [exact DO|]. split; [exact BQ|].
  split; [unfold zlen in *; lia|]. split; [reflexivity|]. rewrite D. rewrite EA at 2. rewrite PE.
  assert (r' = at_ q p2) as ->. { destruct r' as [v p]. unfold at_. cbn in *. congruence. }
  reflexivity.
Qed.
