(** Decoding of whole frames. *)
From Coq Require Import String ZArith List Bool Lia ZifyBool ZifyNat.
From Verif Require Import Py BitStream Schema Registry Codec SpecBits BitLemmas ReaderLemmas WriterLemmas SpecDecode EncodeProofs DecodeLemmas.
Import ListNotations.
Open Scope list_scope.
Open Scope Z_scope.
Local Ltac Zify.zify_post_hook ::= Z.div_mod_to_equations.

(** ** command ids *)
Lemma id_sweep : forallb (fun c => forallb (fun m =>
   Z.lor (Z.shiftl (Z.of_nat c) 8) (Z.land (Z.of_nat m) 255) =? 256 * Z.of_nat c + Z.of_nat m) (seq 0 256)) (seq 0 256) = true.
Proof. vm_compute. reflexivity. Qed.
Lemma id_ok c m : 0 <= c < 256 -> 0 <= m < 256 -> Z.lor (Z.shiftl c 8) (Z.land m 255) = 256 * c + m.
Proof.
  intros Hc Hm. pose proof id_sweep as H. rewrite forallb_forall in H.
  specialize (H (Z.to_nat c)). rewrite in_seq in H. specialize (H ltac:(lia)). rewrite forallb_forall in H.
  specialize (H (Z.to_nat m)). rewrite in_seq in H. specialize (H ltac:(lia)).
  rewrite !Z2Nat.id in H by lia. lia.
Qed.

Fixpoint nodupb (l : list Z) : bool := match l with [] => true | x :: l' => negb (existsb (Z.eqb x) l') && nodupb l' end.
Lemma nodupb_ok l : nodupb l = true -> NoDup l.
Proof.
  induction l as [|x l IH]; cbn; intros H; constructor; apply andb_prop in H as [H1 H2]; auto.
  intros HI. apply negb_true_iff in H1. assert (existsb (Z.eqb x) l = true); [|congruence].
  apply existsb_exists. exists x. split; [exact HI|apply Z.eqb_refl].
Qed.
Lemma registry_nodup : NoDup (map s_hid registry).
Proof. apply nodupb_ok. vm_compute. reflexivity. Qed.
Lemma find_unique {A} (f : A -> Z) l s : NoDup (map f l) -> In s l -> find (fun x => f x =? f s) l = Some s.
Proof.
  induction l as [|x l IH]; cbn; intros N H; [contradiction|]. inversion N; subst.
  destruct (Z.eqb_spec (f x) (f s)) as [E|E].
  - destruct H as [->|H]; [reflexivity|]. exfalso. apply H2. rewrite E. apply in_map. exact H.
  - destruct H as [->|H]; [congruence|]. apply IH; assumption.
Qed.
Lemma lookup_hid s : In s registry -> lookup (s_hid s) = Some s.
Proof. intros H. unfold lookup. apply (find_unique s_hid); [exact registry_nodup|exact H]. Qed.
Lemma lookup_some h s : lookup h = Some s -> In s registry /\ s_hid s = h.
Proof. unfold lookup. intros H. apply find_some in H as [H1 H2]. split; [exact H1|lia]. Qed.
Lemma hid_bytes s : In s registry -> s_hid s = 256 * s_cls s + s_cmd s.
Proof. intros H. destruct (registry_cls_bytes s H). unfold s_hid. apply id_ok; assumption. Qed.

(** ** the two id bytes *)
Lemma deserialize_head f r c m b : rok r -> aligned r -> rest r = nbits 8 c ++ nbits 8 m ++ b ->
  0 <= c < 256 -> 0 <= m < 256 ->
  exists r2, rok r2 /\ aligned r2 /\ rest r2 = b /\ r_pos r2 = r_pos r + 16 /\ r_val r2 = r_val r /\
  deserialize (S f) r =
    match lookup (256 * c + m) with
    | Some s => do (d, r3) <- parse_attrs (hk2 (deserialize f)) (ds2 (deserialize f)) (s_attrs s) (s_attrs s) [] r2;
                Ok (VObj (CMsg s) d, r3)
    | None => Ok (VObj (CUnknown (256 * c + m)) [], r2)
    end.
Proof.
  intros R A E Hc Hm. cbn [deserialize].
  assert (BL : Z.of_nat (length (rest r)) = 8 * bytesLeft r) by (apply aligned_bytesLeft; assumption).
  rewrite E in BL. rewrite !app_length, !nbits_length in BL.
  destruct (Z.ltb_spec (bytesLeft r) 2); [lia|].
  destruct (rbyte_ok r (nbits 8 c) (nbits 8 m ++ b) R A E (nbits_length _ _)) as (E1 & R1 & A1 & RE1).
  rewrite E1. cbn [bind].
  destruct (rbyte_ok (advance 8 r) (nbits 8 m) b R1 A1 RE1 (nbits_length _ _)) as (E2 & R2 & A2 & RE2).
  rewrite E2. cbn [bind].
  rewrite !num_nbits_small by (change (2 ^ Z.of_nat 8) with 256; lia).
  rewrite (id_ok c m Hc Hm).
  exists (advance 8 (advance 8 r)). split; [exact R2|]. split; [exact A2|]. split; [exact RE2|].
  split; [rewrite !advance_pos; lia|]. split; [reflexivity|]. reflexivity.
Qed.

Lemma decode_frame c m p : bytes_ok (c :: m :: p) ->
  exists r2, rok r2 /\ aligned r2 /\ rest r2 = bits_of p /\ r_pos r2 = 16 /\ r_val r2 = c :: m :: p /\
  let f := S (S (length p)) in
  decode (c :: m :: p) =
    match lookup (256 * c + m) with
    | Some s => do (d, r3) <- parse_attrs (hk2 (deserialize f)) (ds2 (deserialize f)) (s_attrs s) (s_attrs s) [] r2;
                Ok (VObj (CMsg s) d)
    | None => Ok (VObj (CUnknown (256 * c + m)) [])
    end.
Proof.
  intros B. destruct (new_reader_ok _ B) as (R & A & E).
  assert (Hc : 0 <= c < 256) by (apply (Forall_inv B)). assert (Hm : 0 <= m < 256) by (apply (Forall_inv (Forall_inv_tail B))).
  rewrite !bits_of_cons in E.
  destruct (deserialize_head (S (S (length p))) _ c m (bits_of p) R A E Hc Hm) as (r2 & R2 & A2 & E2 & P2 & V2 & D).
  exists r2. split; [exact R2|]. split; [exact A2|]. split; [exact E2|]. split; [rewrite P2; reflexivity|]. split; [exact V2|].
  unfold decode. cbn [length]. cbv zeta. rewrite D. destruct (lookup (256 * c + m)); [|reflexivity].
  destruct (parse_attrs _ _ _ _ _ r2) as [[d r3]|]; reflexivity.
Qed.

(** ** C02 *)
Lemma decode_flat s p : In s registry -> flat_class s = true -> bytes_ok p ->
  match cut (s_attrs s) (bits_of p) with
  | None => decode (s_cls s :: s_cmd s :: p) = Err EEOF
  | Some cs =>
      exists d, decode (s_cls s :: s_cmd s :: p) = Ok (VObj (CMsg s) d) /\
      forall n, match last_piece n (s_attrs s) cs with
                | None => aget n d = None
                | Some c => exists v t, aget n d = Some v /\ declared n (s_attrs s) = Some t /\ reads t c v
                end
  end.
Proof.
  intros Hs F B. destruct (registry_cls_bytes s Hs) as [C1 C2].
  destruct (decode_frame (s_cls s) (s_cmd s) p) as (r2 & R & A & E & P & V & D). { constructor; [exact C1|]. constructor; [exact C2|exact B]. }
  cbv zeta in D. rewrite D. rewrite <- hid_bytes, lookup_hid by exact Hs.
  pose proof (parse_flat (hk2 (deserialize (S (S (length p))))) (ds2 (deserialize (S (S (length p)))))) as PF.
  specialize (PF ltac:(intros t n W; destruct t; cbn in W; try discriminate; reflexivity) eq_refl (s_attrs s) r2 F
                (registry_dup_ok s Hs) (registry_aligned s Hs) R A).
  rewrite E in PF. destruct (cut (s_attrs s) (bits_of p)) as [cs|].
  - destruct PF as (d & r' & E1 & ST). rewrite E1. cbn [bind]. exists d. split; [reflexivity|]. exact ST.
  - rewrite PF. reflexivity.
Qed.

Lemma getattr_spec s d n : getattr (VObj (CMsg s) d) n =
  match aget n d with Some v => v | None => match declared n (s_attrs s) with Some t => default_of t | None => VNone end end.
Proof.
  cbn [getattr class_attrs]. destruct (aget n d); [reflexivity|].
  destruct (find_attr_declared n (s_attrs s)) as [[E1 E2]|(a & E1 & E2 & _)]; rewrite E1, E2; reflexivity.
Qed.

(** ** C05 *)

Lemma registered_lookup c m : 0 <= c < 256 -> 0 <= m < 256 ->
  (is_registered c m -> exists s, lookup (256 * c + m) = Some s) /\ (~ is_registered c m -> lookup (256 * c + m) = None).
Proof.
  intros Hc Hm. split.
  - intros (s & Hs & <- & <-). exists s. rewrite <- hid_bytes by exact Hs. apply lookup_hid. exact Hs.
  - intros N. destruct (lookup (256 * c + m)) as [s|] eqn:L; [|reflexivity]. exfalso. apply N.
    apply lookup_some in L as [Hs L]. exists s. split; [exact Hs|]. rewrite hid_bytes in L by exact Hs.
    destruct (registry_cls_bytes s Hs). lia.
Qed.

Lemma decode_short bs : (length bs < 2)%nat -> decode bs = Ok (VObj (CUnknown 0) []).
Proof. intros L. destruct bs as [|a [|b bs]]; [reflexivity|reflexivity|cbn in L; lia]. Qed.
Lemma decode_unregistered c m p : bytes_ok (c :: m :: p) -> ~ is_registered c m ->
  decode (c :: m :: p) = Ok (VObj (CUnknown (256 * c + m)) []).
Proof.
  intros B N. destruct (decode_frame c m p B) as (r2 & _ & _ & _ & _ & _ & D). cbv zeta in D. rewrite D.
  rewrite (proj2 (registered_lookup c m (Forall_inv B) (Forall_inv (Forall_inv_tail B))) N). reflexivity.
Qed.
Lemma decode_registered c m p : bytes_ok (c :: m :: p) -> is_registered c m ->
  (exists e, decode (c :: m :: p) = Err e) \/
  exists s d, decode (c :: m :: p) = Ok (VObj (CMsg s) d) /\ In s registry /\ s_cls s = c /\ s_cmd s = m.
Proof.
  intros B N. destruct (decode_frame c m p B) as (r2 & _ & _ & _ & _ & _ & D). cbv zeta in D. rewrite D.
  pose proof (Forall_inv B) as Hc. pose proof (Forall_inv (Forall_inv_tail B)) as Hm. cbn beta in Hc, Hm.
  destruct (proj1 (registered_lookup c m Hc Hm) N) as [s L]. rewrite L.
  apply lookup_some in L as [Hs L]. rewrite hid_bytes in L by exact Hs. destruct (registry_cls_bytes s Hs).
  destruct (parse_attrs _ _ _ _ _ r2) as [[d r3]|e]; cbn [bind]; [right|left; eauto].
  exists s, d. split; [reflexivity|]. split; [exact Hs|]. lia.
Qed.
Lemma registered_dec c m : is_registered c m \/ ~ is_registered c m.
Proof.
  destruct (existsb (fun s => (s_cls s =? c) && (s_cmd s =? m)) registry) eqn:E.
  - left. apply existsb_exists in E as (s & Hs & E). exists s. split; [exact Hs|lia].
  - right. intros (s & Hs & E1 & E2). assert (existsb (fun s => (s_cls s =? c) && (s_cmd s =? m)) registry = true); [|congruence].
    apply existsb_exists. exists s. split; [exact Hs|lia].
Qed.

(** ** C06 *)
Lemma registry_pairs_nodup : NoDup (map (fun s => (s_cls s, s_cmd s)) registry).
Proof.
  apply (NoDup_map_inv (fun p => Z.lor (Z.shiftl (fst p) 8) (Z.land (snd p) 255))). rewrite map_map. exact registry_nodup.
Qed.
Lemma decode_id c m p v : bytes_ok (c :: m :: p) -> decode (c :: m :: p) = Ok v -> hid v = 256 * c + m.
Proof.
  intros B E. destruct (registered_dec c m) as [R|R].
  - destruct (decode_registered c m p B R) as [[e X]|(s & d & X & Hs & <- & <-)]; [congruence|].
    rewrite X in E. injection E as <-. cbn. apply hid_bytes. exact Hs.
  - rewrite (decode_unregistered c m p B R) in E. injection E as <-. reflexivity.
Qed.

(** nothing a serializer does touches bytes already completed *)
Definition grows (p : list Z) (w : writer) : Prop :=
  exists t, w_buf w = p ++ t /\ (w_start w <> 0 -> t <> []).
Lemma grows_wextend p bs w w' : grows p w -> wextend bs w = Ok w' -> grows p w'.
Proof.
  unfold wextend. intros (t & E & S) H. destruct (forallb is_byte bs); [|discriminate]. injection H as <-. cbn.
  exists (t ++ bs). rewrite E, app_assoc. split; [reflexivity|]. intros H X. apply (S H). apply app_eq_nil in X. tauto.
Qed.
Lemma grows_addBytes p v n sg w w' : grows p w -> addBytes v n sg w = Ok w' -> grows p w'.
Proof.
  unfold addBytes. intros (t & E & S) H. destruct (to_bytes v n sg) as [bs|]; [|discriminate]. injection H as <-. cbn.
  exists (t ++ bs). rewrite E, app_assoc. split; [reflexivity|]. intros X; contradiction X; reflexivity.
Qed.
Lemma grows_addBits p v n w w' : grows p w -> addBits v n w = Ok w' -> grows p w'.
Proof.
  unfold addBits. intros (t & E & S) H.
  destruct (8 - w_start w - n <? 0); [discriminate|].
  match type of H with (if ?c then _ else _) = _ => destruct c; [|discriminate] end. injection H as <-. cbn [w_buf w_start].
  destruct (Z.eqb_spec (w_start w) 0) as [E0|E0].
  - rewrite removelast_last. rewrite E, <- app_assoc. eexists. split; [reflexivity|]. intros _ X. apply app_eq_nil in X. destruct X; discriminate.
  - specialize (S E0). rewrite E. destruct (exists_last S) as (t0 & x & ->). rewrite app_assoc, removelast_last, <- app_assoc.
    eexists. split; [reflexivity|]. intros _ X. apply app_eq_nil in X. destruct X; discriminate.
Qed.
Lemma grows_nodes p l w w' : grows p w -> nodes_serialize l w = Ok w' -> grows p w'.
Proof.
  unfold nodes_serialize, wappend. intros G H. destruct (wextend (nodes_plain l) w) as [w1|] eqn:E1; [|discriminate]. cbn [bind] in H.
  pose proof (grows_wextend _ _ _ _ G E1) as G1. destruct (has_multi l); [|congruence].
  destruct (wextend [0] w1) as [w2|] eqn:E2; [|discriminate]. cbn [bind] in H.
  eapply grows_wextend; [|exact H]. eapply grows_wextend; eassumption.
Qed.
Lemma grows_serialize p v w w' : grows p w -> serialize v w = Ok w' -> grows p w'.
Proof.
  intros G H. destruct v; cbn [serialize serialize_simple] in H; try discriminate;
    try (eapply grows_addBytes; eassumption); try (eapply grows_addBits; eassumption);
    try (eapply grows_wextend; eassumption); try (eapply grows_nodes; eassumption); try congruence.
  destruct c; try discriminate; try (eapply grows_wextend; eassumption).
  destruct (compose_with _ _ _); [|discriminate]. cbn [bind] in H. eapply grows_wextend; eassumption.
Qed.
Lemma grows_compose_attrs p d l w w' : grows p w -> compose_attrs d (sers_of d) l w = Ok w' -> grows p w'.
Proof.
  revert w. induction l as [|a l IH]; intros w G H; cbn [compose_attrs] in H; [congruence|].
  destruct (compose_attr d (sers_of d) a w) as [w1|] eqn:E; [|discriminate]. cbn [bind] in H. eapply IH; [|exact H].
  clear H IH. unfold compose_attr in E. destruct (aget (a_name a) d) as [v|] eqn:GA.
  - destruct (a_compose a) as [[]|].
    + unfold run_chook in E. destruct (aget "value" d) as [v1|]; [|discriminate]. destruct (aget "size" d) as [v2|]; [|discriminate].
      destruct (is_int v1 && is_int v2); [|discriminate]. destruct (to_int v1); [|discriminate]. destruct (to_int v2); [|discriminate].
      cbn [bind] in E. eapply grows_addBytes; eassumption.
    + destruct (has_serialize v); [|discriminate]. rewrite (dget_sers _ _ _ GA) in E. eapply grows_serialize; eassumption.
  - unfold serialize_default in E. destruct (a_ty a); try discriminate.
    + eapply grows_addBits; eassumption.
    + eapply grows_wextend; eassumption.
    + eapply grows_nodes; eassumption.
    + congruence.
Qed.
Lemma compose_id s d bs : In s registry -> compose (VObj (CMsg s) d) = Ok bs -> exists t, bs = s_cls s :: s_cmd s :: t.
Proof.
  intros Hs H. destruct (registry_cls_bytes s Hs) as [C1 C2]. cbn [compose] in H. unfold compose_with in H.
  unfold addBytes at 1 in H. change 1 with (Z.of_nat 1) in H.
  rewrite (to_bytes_ok false 1 (s_cls s) C1) in H. cbn [bind] in H.
  unfold addBytes in H. rewrite (to_bytes_ok false 1 (s_cmd s) C2) in H. cbn [bind w_buf app be_bytes] in H.
  change (w_buf new_writer) with (@nil Z) in H. cbn [app] in H. rewrite !Z.mod_small in H by lia.
  destruct (compose_attrs _ _ _ _) as [w3|] eqn:E; [|discriminate]. cbn [bind] in H. injection H as <-.
  assert (G : grows [s_cls s; s_cmd s] (mkW [s_cls s; s_cmd s] 0)). { exists []. split; [reflexivity|]. cbn. intros X; contradiction X; reflexivity. }
  destruct (grows_compose_attrs _ _ _ _ _ G E) as (t & Et & _). exists t. exact Et.
Qed.
