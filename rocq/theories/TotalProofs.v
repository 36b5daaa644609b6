(** C07: decoding terminates, nests boundedly, and only raises the expected exceptions; decoding does not depend
    on where in a buffer the frame starts. *)
From Coq Require Import String ZArith List Bool Lia ZifyBool ZifyNat.
From Verif Require Import Py BitStream Schema Registry Codec SpecBits BitLemmas ReaderLemmas SpecDecode SpecRound SpecTotal
  EncodeProofs DecodeLemmas DecodeProofs RoundTrip ParseRel.
Import ListNotations.
Open Scope list_scope.
Open Scope Z_scope.
Local Ltac Zify.zify_post_hook ::= Z.div_mod_to_equations.

Lemma rel_same {A B} (x : res A) (f g : A -> res (B * reader)) Q :
  (forall e, x = Err e -> decode_error e) -> (forall a, x = Ok a -> rel Q (f a) (g a)) -> rel Q (bind x f) (bind x g).
Proof. intros HE HF. destruct x as [a|e]; cbn [bind]; [apply HF; reflexivity|apply rel_err, HE; reflexivity]. Qed.

Definition num_ty (t : aty) : bool :=
  match t with TInt false _ | TUb _ | TBits _ | TRes _ | TFlag => true | _ => false end.
Definition closed (t : aty) : bool := match t with TBytes | TNodes | TSensors | TMsg => false | _ => true end.
Definition wmin (t : aty) : Z := match width t with Some n => Z.of_nat n | None => 0 end.
Definition nextoff (t : aty) (o : Z) : Z := match sub_width t with Some n => (o + n) mod 8 | None => 0 end.

(** least number of bits an attribute takes *)
Definition wlow (a : attr) : Z := match a_parse a with None => wmin (a_ty a) | Some _ => 0 end.
Fixpoint lowbits (l : list attr) : Z := match l with [] => 0 | a :: l' => wlow a + lowbits l' end.
Lemma lowbits_app l1 l2 : lowbits (l1 ++ l2) = lowbits l1 + lowbits l2.
Proof. induction l1 as [|a l1 IH]; cbn [app lowbits]; [reflexivity|]. rewrite IH. lia. Qed.

(** ** errors of the loops *)
Lemma utf8_err fuel bs e : utf8_decode fuel bs = Err e -> e = EUnicode.
Proof.
  revert bs; induction fuel as [|f IH]; intros bs H; [discriminate|]. cbn [utf8_decode] in H.
  destruct bs as [|b r]; [discriminate|].
  repeat match type of H with
         | (if ?c then _ else _) = _ => destruct c
         | match ?l with [] => _ | _ => _ end = _ => destruct l
         | bind ?x _ = _ => destruct x eqn:?; cbn [bind] in H
         | Ok _ = _ => discriminate
         | Err _ = _ => injection H as <-
         end; try reflexivity; try (eapply IH; eassumption).
Qed.
Lemma nodes_pairs_err bs e : nodes_pairs bs = Err e -> e = EIndex.
Proof.
  revert bs e. fix IH 1. intros [|n [|m bs]] e H; cbn [nodes_pairs] in H; [discriminate|injection H as <-; reflexivity|].
  destruct (nodes_pairs bs) eqn:E; cbn [bind] in H; [discriminate|]. injection H as <-. eapply IH; eassumption.
Qed.
Lemma nodes_decode_err bs e : nodes_decode bs = Err e -> e = EIndex.
Proof.
  induction bs as [|n bs IH]; cbn [nodes_decode]; intros H; [discriminate|]. destruct (n =? 0); [eapply nodes_pairs_err; eassumption|].
  destruct (nodes_decode bs); cbn [bind] in H; [discriminate|]. injection H as <-. auto.
Qed.
Lemma sensors_err fuel v i acc e : sensors_loop fuel v i acc = Err e -> e = EValue.
Proof.
  revert v i acc; induction fuel as [|f IH]; intros v i acc H; cbn [sensors_loop] in H; [discriminate|].
  destruct (v <=? 0); [discriminate|]. destruct (Z.land v 1 =? 1); [destruct (existsb _ _)|]; cbn [bind] in H.
  - eapply IH; eassumption. - injection H as <-. reflexivity. - eapply IH; eassumption.
Qed.

Section Steps.
  Variable pre : list Z.
  Variable D : nat.
  Notation sim := (sim pre).

  Definition good (t : aty) (v : val) : Prop :=
    (num_ty t = true -> exists z, to_int v = Ok z /\ 0 <= z) /\ (depth v <= D)%nat.
  Definition vok (t : aty) (v : val) : Prop :=
    match setattr_coerce t v with Ok v' => good t v' | Err e => decode_error e end /\ (forall k, t = TRes k -> exists z, v = VInt z).

  Definition after (w : Z) (t : aty) (r' : reader) (q q' : reader) : Prop :=
    sim q q' /\ r_pos q' mod 8 = nextoff t (r_pos r' mod 8) /\ bytesLeft q' <= bytesLeft r' /\ r_pos r' + w <= r_pos q'.

  Lemma after_aligned w t r' q q' : sub_width t = None -> sim q q' -> aligned q' -> bytesLeft q' <= bytesLeft r' ->
    r_pos r' + w <= r_pos q' -> after w t r' q q'.
  Proof. intros S1 S2 A L P. unfold after, nextoff. rewrite S1. auto. Qed.

  Lemma nodelist_rel : forall n i acc r r', sim r r' -> aligned r' ->
    rel (fun l q q' => sim q q' /\ aligned q' /\ bytesLeft q' <= bytesLeft r' /\ r_pos r' <= r_pos q') (nodelist_loop n i acc r) (nodelist_loop n i acc r').
  Proof.
    induction n as [|n IH]; intros i acc r r' H A; cbn [nodelist_loop].
    - cbn [rel]. repeat split; try apply H; try exact A; lia.
    - eapply rel_bind; [apply (rel_rvalue0 pre 1); [exact H|exact A|lia]|]. cbn beta. intros bs q q' (B & L & SM & AL & LF & P).
      eapply rel_mono; [|apply IH; [exact SM|exact AL]]. cbn beta. intros l q1 q1' (S1 & A1 & L1 & P1).
      split; [exact S1|]. split; [exact A1|]. lia.
  Qed.
  Definition meta_vals (l : list (Z * val)) : Prop := Forall (fun kv => exists bs, snd kv = VPBytes bs) l.
  Lemma dset_forall {K V} (eqb : K -> K -> bool) (P : K * V -> Prop) k v d :
    (forall k', P (k', v)) -> Forall P d -> Forall P (dset eqb k v d).
  Proof.
    intros HV F. induction F as [|[k' v'] d Hx F IH]; cbn [dset]; [constructor; auto|].
    destruct (eqb k k'); constructor; auto.
  Qed.
  Lemma meta_rel : forall fuel acc r r', sim r r' -> aligned r' -> bytesLeft r' <= Z.of_nat fuel -> meta_vals acc ->
    rel (fun l q q' => sim q q' /\ aligned q' /\ bytesLeft q' <= bytesLeft r' /\ r_pos r' <= r_pos q' /\ meta_vals l)
        (meta_loop fuel acc r) (meta_loop fuel acc r').
  Proof.
    induction fuel as [|f IH]; intros acc r r' H A L V; cbn [meta_loop]; rewrite (proj1 (sim_left pre r r' H));
      pose proof (proj2 (sim_left pre r r' H)) as N.
    - destruct (Z.eqb_spec (bytesLeft r') 0); [|lia]. cbn [rel]. repeat split; try apply H; try exact A; try exact V; lia.
    - destruct (Z.eqb_spec (bytesLeft r') 0). { cbn [rel]. repeat split; try apply H; try exact A; try exact V; lia. }
      unfold aligned in A.
      eapply rel_bind; [apply (rel_rbits pre 7); [exact H|lia|lia]|]. cbn beta. intros ty q1 q1' (T1 & S1 & P1 & L1 & L1').
      unfold rbit. eapply rel_bind; [apply (rel_rbits pre 1); [exact S1|lia|lia]|]. cbn beta. intros cr q2 q2' (T2 & S2 & P2 & L2 & L2').
      assert (A2 : aligned q2') by (unfold aligned; lia).
      eapply rel_bind; [apply (rel_rbyte pre); [exact S2|exact A2]|]. cbn beta. intros len q3 q3' (T3 & S3 & A3 & L3 & P3).
      eapply rel_bind; [apply (rel_rvalue0 pre len); [exact S3|exact A3|lia]|]. cbn beta. intros bs q4 q4' (B4 & Z4 & S4 & A4 & L4 & P4).
      eapply rel_mono; [|apply IH; [exact S4|exact A4|lia|]].
      + cbn beta. intros l q5 q5' (S5 & A5 & L5 & P5 & V5). repeat split; try apply S5; try exact A5; try exact V5; lia.
      + apply dset_forall; [|exact V]. intros k. exists bs. reflexivity.
  Qed.

  Lemma meta_coerce_ok l : meta_vals l -> forall acc, meta_vals acc ->
    match vardict_setstate meta_type_ok meta_coerce l acc with Ok d => meta_vals d | Err e => e = EValue end.
  Proof.
    induction 1 as [|[k v] l [bs E] F IH]; intros acc V; cbn [vardict_setstate]; [exact V|].
    cbn in E. subst v. destruct (meta_type_ok k); [|reflexivity]. cbn [meta_coerce bind]. apply IH.
    apply dset_forall; [|exact V]. intros. eexists. reflexivity.
  Qed.

  Lemma rel_ds0 t r r' : sim r r' -> fits_here t r' -> bytesLeft r' <> 0 -> t <> THdr -> t <> TMsg ->
    rel (fun v q q' => vok t v /\ (closed t = true -> after (wmin t) t r' q q')) (ds0 t r) (ds0 t r').
  Proof.
    intros H F N NH NM.
    assert (ATTR : forall v : val, rel (fun v q q' => vok t v /\ (closed t = true -> after (wmin t) t r' q q')) (Err EAttribute) (Err EAttribute))
      by (intros; apply rel_err, de_attr).
    destruct t as [sg sz|n|n| |n| | | | | | | | | | | | | | |]; unfold fits_here in F; cbn [sub_width] in F; cbn [ds0];
      try (exact (ATTR VNone)); try contradiction.
    - (* TInt *) eapply rel_bind; [apply (rel_rvalue0 pre (Z.of_nat sz)); [exact H|exact F|lia]|]. cbn beta.
      intros bs q q' (B & L & SM & AL & LF & P). cbn [rel]. split; [reflexivity|]. split.
      + split; [|intros k X; discriminate X]. unfold setattr_coerce. cbn [isinst]. rewrite Bool.eqb_reflx, Nat.eqb_refl. cbn [andb].
        split; [|cbn; lia]. intros NT. destruct sg; [discriminate|]. cbn [to_int]. eexists. split; [reflexivity|].
        cbn. pose proof (from_bytes_u_range bs B). lia.
      + intros _. apply after_aligned; try assumption; try reflexivity; cbn [wmin width]; unfold wmin, width; lia.
    - (* TUb *) eapply rel_bind; [apply (rel_rbits pre n); [exact H|lia|lia]|]. cbn beta. intros z q q' (Z0 & SM & P & L & L').
      cbn [rel]. split; [reflexivity|]. split; [split; [|intros k X; discriminate X]|].
      + cbn. split; [intros _; eexists; split; [reflexivity|lia]|cbn; lia].
      + intros _. unfold after, nextoff, wmin, width. cbn [sub_width]. repeat split; try apply SM; lia.
    - (* TBits *) eapply rel_bind; [apply (rel_rbits pre n); [exact H|lia|lia]|]. cbn beta. intros z q q' (Z0 & SM & P & L & L').
      cbn [rel]. split; [reflexivity|]. split; [split; [|intros k X; discriminate X]|].
      + cbn. split; [intros _; eexists; split; [reflexivity|lia]|cbn; lia].
      + intros _. unfold after, nextoff, wmin, width. cbn [sub_width]. repeat split; try apply SM; lia.
    - (* TFlag *) eapply rel_bind; [apply (rel_rbits pre 1); [exact H|lia|lia]|]. cbn beta. intros z q q' (Z0 & SM & P & L & L').
      cbn [rel]. split; [reflexivity|]. split; [split; [|intros k X; discriminate X]|].
      + cbn. split; [intros _; eexists; split; [reflexivity|]|cbn; lia]. change 1 with (Z.ones 1). rewrite Z.land_ones by lia. lia.
      + intros _. unfold after, nextoff, wmin, width. cbn [sub_width]. repeat split; try apply SM; lia.
    - (* TRes *) eapply rel_bind; [apply (rel_rbits pre n); [exact H|lia|lia]|]. cbn beta. intros z q q' (Z0 & SM & P & L & L').
      cbn [rel]. split; [reflexivity|]. split; [split; [|intros k X; eauto]|].
      + cbn. split; [intros _; eexists; split; [reflexivity|lia]|cbn; lia].
      + intros _. unfold after, nextoff, wmin, width. cbn [sub_width]. repeat split; try apply SM; lia.
    - (* TBytes *) destruct (rel_remaining pre r r' H) as (E & B & _).
      destruct (remaining r) as [bs q], (remaining r') as [bs' q']. cbn [fst] in *. subst bs'.
      cbn [rel]. split; [reflexivity|]. split; [split; [|intros k X; discriminate X]|intros X; discriminate X].
      cbn. split; [intros X; discriminate X|cbn; lia].
    - (* TStrT *) eapply rel_bind; [apply (rel_rbyte pre); [exact H|exact F]|]. cbn beta. intros len q q' (Z0 & SM & AL & LF & P).
      eapply rel_bind; [apply (rel_rvalue0 pre len); [exact SM|exact AL|lia]|]. cbn beta. intros bs q1 q1' (B & L & SM1 & AL1 & LF1 & P1).
      apply rel_same; [intros e X; rewrite (utf8_err _ _ _ X); apply de_uni|]. intros s X. cbn [rel]. split; [reflexivity|].
      split; [split; [|intros k Y; discriminate Y]|].
      + cbn. split; [intros Y; discriminate Y|cbn; lia].
      + intros _. apply after_aligned; try assumption; try reflexivity; unfold wmin, width; lia.
    - (* TFloat *) unfold float_deserialize. unfold aligned in F.
      eapply rel_bind; [apply (rel_rbits pre 3); [exact H|lia|lia]|]. cbn beta. intros z1 q1 q1' (Z1 & S1 & P1 & L1 & L1').
      eapply rel_bind; [apply (rel_rbits pre 2); [exact S1|lia|lia]|]. cbn beta. intros z2 q2 q2' (Z2 & S2 & P2 & L2 & L2').
      eapply rel_bind; [apply (rel_rbits pre 3); [exact S2|lia|lia]|]. cbn beta. intros z3 q3 q3' (Z3 & S3 & P3 & L3 & L3').
      eapply rel_bind; [apply (rel_rvalue0 pre z3); [exact S3|unfold aligned; lia|lia]|]. cbn beta. intros bs q4 q4' (B & L & S4 & A4 & L4 & P4).
      cbn [rel]. split; [reflexivity|]. split; [split; [|intros k Y; discriminate Y]|].
      + cbn. split; [intros Y; discriminate Y|cbn; lia].
      + intros _. apply after_aligned; try assumption; try reflexivity; unfold wmin, width; lia.
    - (* TDsk *) unfold dsk_deserializeN. cbn [Z.eqb negb Pos.eqb].
      eapply rel_bind; [apply (rel_rvalue0 pre 16); [exact H|exact F|lia]|]. cbn beta. intros bs q q' (B & L & SM & AL & LF & P).
      cbn [rel]. split; [reflexivity|]. split; [split; [|intros k Y; discriminate Y]|].
      + unfold setattr_coerce. cbn [isinst has_setstate setstate dsk_setstate]. rewrite L. cbn [Z.eqb Pos.eqb orb].
        split; [intros Y; discriminate Y|cbn; lia].
      + intros _. apply after_aligned; try assumption; try reflexivity; unfold wmin, width; lia.
    - (* TIPv6 *) eapply rel_bind; [apply (rel_rvalue0 pre 16); [exact H|exact F|lia]|]. cbn beta. intros bs q q' (B & L & SM & AL & LF & P).
      cbn [rel]. split; [reflexivity|]. split; [split; [|intros k Y; discriminate Y]|].
      + cbn. split; [intros Y; discriminate Y|cbn; lia].
      + intros _. apply after_aligned; try assumption; try reflexivity; unfold wmin, width; lia.
    - (* TNodes *) destruct (rel_remaining pre r r' H) as (E & B & _).
      destruct (remaining r) as [bs q], (remaining r') as [bs' q']. cbn [fst] in *. subst bs'.
      apply rel_same; [intros e X; rewrite (nodes_decode_err _ _ X); apply de_index|]. intros l X. cbn [rel]. split; [reflexivity|].
      split; [split; [|intros k Y; discriminate Y]|intros Y; discriminate Y].
      unfold setattr_coerce. cbn [isinst has_setstate setstate nodes_val]. fold (nodes_val l). rewrite nodes_val_setstate.
      split; [intros Y; discriminate Y|cbn; lia].
    - (* TNodeList *) unfold nodelist_deserialize. eapply rel_bind; [apply nodelist_rel; [exact H|exact F]|]. cbn beta.
      intros l q q' (SM & AL & LF & P). cbn [rel]. split; [reflexivity|]. split; [split; [|intros k Y; discriminate Y]|].
      + cbn. split; [intros Y; discriminate Y|cbn; lia].
      + intros _. apply after_aligned; try assumption; try reflexivity; unfold wmin, width; lia.
    - (* TSensors *) unfold sensors_deserialize. destruct (rel_remaining pre r r' H) as (E & B & _).
      destruct (remaining r) as [bs q], (remaining r') as [bs' q']. cbn [fst] in *. subst bs'.
      destruct (sensors_loop _ _ _ _) as [l|e] eqn:X; cbn [bind].
      + cbn [rel]. split; [reflexivity|]. split; [split; [|intros k Y; discriminate Y]|intros Y; discriminate Y].
        cbn. split; [intros Y; discriminate Y|cbn; lia].
      + apply rel_err. rewrite (sensors_err _ _ _ _ _ X). apply de_value.
    - (* TMeta *) rewrite (proj1 (sim_left pre r r' H)). pose proof (proj2 (sim_left pre r r' H)).
      eapply rel_bind; [apply (meta_rel (Z.to_nat (bytesLeft r')) []); [exact H|exact F|lia|constructor]|]. cbn beta.
      intros l q q' (SM & AL & LF & P & V). cbn [rel]. split; [reflexivity|]. split; [split; [|intros k Y; discriminate Y]|].
      + unfold setattr_coerce. cbn [isinst has_setstate setstate items bind]. pose proof (meta_coerce_ok l V [] (Forall_nil _)) as MC.
        destruct (vardict_setstate meta_type_ok meta_coerce l []); cbn [bind]; [|subst e; apply de_value].
        split; [intros Y; discriminate Y|cbn; lia].
      + intros _. apply after_aligned; try assumption; try reflexivity; unfold wmin, width; lia.
  Qed.

  (** ** the attribute loop *)
  Section Loop.
    Variables (hk hk' : phook -> adict -> reader -> res (val * reader)) (ds ds' : aty -> reader -> res (val * reader)).
    Variable all : list attr.
    Variable B : Z.
    Variable closed_all : bool.
    Variable base : Z.

    Definition dgood (d : adict) : Prop :=
      (forall n v t, aget n d = Some v -> declared n all = Some t -> good t v) /\ Forall (fun p => (depth (snd p) <= D)%nat) d.

    Definition rd (a : attr) (d : adict) (r : reader) : res (val * reader) :=
      match a_parse a with Some h => hk h d r | None => ds (a_ty a) r end.
    Definition rd' (a : attr) (d : adict) (r : reader) : res (val * reader) :=
      match a_parse a with Some h => hk' h d r | None => ds' (a_ty a) r end.

    Hypothesis step : forall seen a post, all = seen ++ a :: post -> forall d r r', dict_ok seen d -> dgood d -> sim r r' ->
      fits_here (a_ty a) r' -> bytesLeft r' <> 0 -> bytesLeft r' <= B -> base + lowbits seen <= r_pos r' ->
      rel (fun v q q' => vok (a_ty a) v /\ (post <> [] \/ closed_all = true -> after (wlow a) (a_ty a) r' q q')) (rd a d r) (rd' a d r').

    Lemma aset_depth n v d : (depth v <= D)%nat -> Forall (fun p => (depth (snd p) <= D)%nat) d ->
      Forall (fun p : string * val => (depth (snd p) <= D)%nat) (aset n v d).
    Proof. intros HV F. apply dset_forall; auto. Qed.

    Lemma loop_rel : forall todo seen d r r', all = seen ++ todo -> dup_ok seen todo = true -> al todo (r_pos r' mod 8) = true ->
      dict_ok seen d -> dgood d -> sim r r' -> bytesLeft r' <= B -> base + lowbits seen <= r_pos r' ->
      rel (fun d' q q' => dgood d' /\ (closed_all = true -> sim q q' /\ aligned q' /\ bytesLeft q' <= bytesLeft r'))
          (parse_attrs hk ds all todo d r) (parse_attrs hk' ds' all todo d r').
    Proof.
      induction todo as [|a todo IH]; intros seen d r r' EA DU A DO DG H L BS; cbn [parse_attrs].
      - cbn [rel]. split; [reflexivity|]. split; [exact DG|]. intros _. cbn [al] in A. unfold aligned. split; [exact H|]. lia.
      - rewrite (proj1 (sim_left pre r r' H)). destruct (Z.eqb_spec (bytesLeft r') 0) as [Z0|NZ].
        + cbn [rel]. split; [reflexivity|]. split; [exact DG|]. intros _. split; [exact H|]. destruct H as (_ & _ & _ & P).
          unfold bytesLeft in *. rewrite startByte_div in Z0 by lia. unfold aligned. split; [lia|]. lia.
        + assert (ST : forall x, x = match a_parse a with Some h => hk h d r | None => ds (a_ty a) r end -> x = rd a d r) by (intros; assumption).
          eapply rel_bind.
          * apply (step seen a todo EA d r r' DO DG H); [|exact NZ|exact L|exact BS].
            cbn [al] in A. unfold fits_here, aligned. destruct (sub_width (a_ty a)); lia.
          * cbn beta. intros v q q' [[VC VR] AF].
            destruct (setattr_coerce (a_ty a) v) as [v'|e] eqn:SC.
            -- destruct (setattr_step all seen a todo v v' d EA DU DO SC) as (w & ES & DO' & W1 & W2). { exact VR. }
               rewrite ES. cbn [bind].
               assert (GW : good (match declared (a_name a) all with Some t => t | None => a_ty a end) w).
               { destruct (declared (a_name a) seen) as [t|] eqn:DS.
                 - destruct (W2 ltac:(discriminate)) as (k & k' & z & D1 & D2 & D3 & ->). rewrite D1.
                   split; [|cbn; lia]. intros _. cbn. exists z. split; [reflexivity|].
                   subst v. rewrite D2 in SC, VC. cbn in SC. injection SC as <-. destruct VC as [VC _]. destruct (VC eq_refl) as (z' & Ez & Hz).
                   cbn in Ez. congruence.
                 - rewrite (W1 eq_refl). assert (DA : declared (a_name a) all = Some (a_ty a)).
                   { rewrite EA, declared_app, DS. cbn. rewrite String.eqb_refl. reflexivity. }
                   rewrite DA. exact VC. }
               assert (DG' : dgood (aset (a_name a) w d)).
               { destruct DG as [DG1 DG2]. split.
                 - intros n x t G DC. destruct (string_dec n (a_name a)) as [->|NE].
                   + rewrite aget_aset_same in G. injection G as <-. rewrite DC in GW. exact GW.
                   + rewrite aget_aset_other in G by exact NE. eapply DG1; eassumption.
                 - apply aset_depth; [apply GW|exact DG2]. }
               destruct todo as [|a' todo'].
               ++ cbn [parse_attrs rel]. split; [reflexivity|]. split; [exact DG'|]. intros CA. destruct (AF (or_intror CA)) as (S1 & S2 & S3 & S4).
                  split; [exact S1|]. split; [|exact S3]. unfold aligned. rewrite S2. cbn [al] in A. unfold nextoff.
                  destruct (sub_width (a_ty a)); cbn [al] in A; lia.
               ++ assert (NN : a' :: todo' <> []) by (intros X; discriminate X). destruct (AF (or_introl NN)) as (S1 & S2 & S3 & S4).
                  eapply rel_mono; [|apply (IH (seen ++ [a]) _ q q')].
                  ** cbn beta. intros d' q1 q1' [G1 G2]. split; [exact G1|]. intros CA. destruct (G2 CA) as (? & ? & ?). split; [assumption|]. split; [assumption|lia].
                  ** rewrite <- app_assoc. exact EA.
                  ** apply (dup_tail seen a). exact DU.
                  ** rewrite S2. unfold nextoff. cbn [al] in A |- *. destruct (sub_width (a_ty a)); apply andb_prop in A as [_ A]; exact A.
                  ** exact DO'.
                  ** exact DG'.
                  ** exact S1.
                  ** lia.
                  ** rewrite lowbits_app. cbn [lowbits]. lia.
            -- assert (ES : setattr all (a_name a) v d = Err e).
               { cbn [dup_ok] in DU. destruct (declared (a_name a) seen) as [t|] eqn:DS.
                 - apply andb_prop in DU as [DU _]. apply andb_prop in DU as [DU _]. apply andb_prop in DU as [_ IR].
                   destruct (a_ty a) eqn:T; try discriminate. destruct (VR _ eq_refl) as [z ->]. cbn in SC. discriminate.
                 - assert (DA : declared (a_name a) all = Some (a_ty a)).
                   { rewrite EA, declared_app, DS. cbn. rewrite String.eqb_refl. reflexivity. }
                   unfold setattr. destruct (find_attr_declared (a_name a) all) as [[_ X]|(x & E1 & E2 & E3)]; [congruence|].
                   rewrite E1. assert (a_ty x = a_ty a) as -> by congruence. rewrite SC. reflexivity. }
               rewrite ES. cbn [bind]. apply rel_err. exact VC.
    Qed.
  End Loop.
End Steps.

Definition errok {A} (P : A -> Prop) (x : res A) : Prop := match x with Ok a => P a | Err e => decode_error e end.
Lemma errok_bind {A B} (P : A -> Prop) (Q : B -> Prop) x f : errok P x -> (forall a, P a -> errok Q (f a)) -> errok Q (bind x f).
Proof. destruct x; cbn; auto. Qed.
Lemma errok_mono {A} (P Q : A -> Prop) x : (forall a, P a -> Q a) -> errok P x -> errok Q x.
Proof. destruct x; cbn; auto. Qed.
Lemma rel_errok {A} (P : A -> reader -> reader -> Prop) x : rel P x x -> errok (fun ar => P (fst ar) (snd ar) (snd ar)) x.
Proof. destruct x as [[a r]|e]; cbn; tauto. Qed.
Lemma errok_same {A B} (x : res A) (f g : A -> res (B * reader)) P Q :
  errok P x -> (forall a, P a -> rel Q (f a) (g a)) -> rel Q (bind x f) (bind x g).
Proof. intros E H. apply rel_same; [intros e X; rewrite X in E; exact E|]. intros a X. rewrite X in E. apply H. exact E. Qed.

Lemma after_left pre w t r' q q' : after pre w t r' q q' -> sim pre q q'. Proof. intros (H & _). exact H. Qed.

(** ** objects nested in other attributes *)
Definition plain_sub (c : cls) : bool :=
  forallb (fun a => match a_parse a with None => true | _ => false end && closed (a_ty a)
                    && match a_ty a with THdr => false | _ => true end) (class_attrs c)
  && dup_ok [] (class_attrs c) && al (class_attrs c) 0.

Lemma parse_sub_rel pre c r r' : plain_sub c = true -> sim pre r r' -> aligned r' ->
  rel (fun v q q' => (exists d, v = VObj c d) /\ sim pre q q' /\ aligned q' /\ bytesLeft q' <= bytesLeft r') (parse_sub c r) (parse_sub c r').
Proof.
  intros PS H A. unfold plain_sub in PS. apply andb_prop in PS as [PS AL]. apply andb_prop in PS as [PL DU]. rewrite forallb_forall in PL.
  unfold parse_sub. eapply rel_bind.
  - apply (loop_rel pre 0 hk0 hk0 ds0 ds0 (class_attrs c) (bytesLeft r') true 0) with (seen := []).
    + intros seen a post E d q q' DO DG S1 F N L P. assert (IA : In a (class_attrs c)) by (rewrite E; apply in_or_app; right; left; reflexivity).
      specialize (PL a IA). apply andb_prop in PL as [PL NH]. apply andb_prop in PL as [PL CL].
      unfold rd, rd', wlow. destruct (a_parse a) eqn:PA; [discriminate|].
      eapply rel_mono; [|apply (rel_ds0 pre 0); try assumption].
      * cbn beta. intros v q1 q1' [V AF]. split; [exact V|]. intros _. apply AF. exact CL.
      * intros X; rewrite X in NH; discriminate.
      * intros X; rewrite X in CL; discriminate.
    + reflexivity.
    + exact DU.
    + unfold aligned in A. rewrite A. exact AL.
    + intros n. reflexivity.
    + split; [|constructor]. intros n v t X. discriminate X.
    + exact H.
    + lia.
    + cbn [lowbits]. destruct H as (_ & _ & _ & ?). lia.
  - cbn beta. intros d q q' [_ C]. destruct (C eq_refl) as (S1 & A1 & L1). cbn [rel]. split; [reflexivity|]. split; [eauto|]. auto.
Qed.

Lemma new_reader_ok bs : bytes_ok bs -> sim [] (new_reader bs) (new_reader bs) /\ aligned (new_reader bs) /\ bytesLeft (new_reader bs) = zlen bs.
Proof.
  intros B. split; [|split; [reflexivity|]].
  - apply sim_refl. split; [exact B|]. cbn. pose proof (zlen_nonneg bs). lia.
  - unfold bytesLeft, startByte, new_reader. cbn [r_val r_pos]. rewrite Z.quot_0_l by lia. lia.
Qed.

Lemma ime_load_ok ty bs : bytes_ok bs -> errok (fun _ => True) (ime_load ty bs).
Proof.
  intros B. destruct (new_reader_ok bs B) as (S1 & A1 & L1).
  assert (V : forall k f, 0 <= k -> errok (fun _ : val => True) (do (b, _) <- rvalue k (new_reader bs); Ok (f b))).
  { intros k f K. eapply errok_bind; [apply rel_errok, (rel_rvalue0 [] k); [exact S1|exact A1|exact K]|]. intros [b q] _. exact I. }
  unfold ime_load.
  repeat match goal with |- errok _ (match ?z with _ => _ end) => destruct z end;
    try exact I; try (apply (V _ (fun b => VI false _ (from_bytes_u b))); lia).
  eapply errok_bind; [apply rel_errok, (parse_sub_rel [] CRoute); [vm_compute; reflexivity|exact S1|exact A1]|]. intros [o q] _. exact I.
Qed.
Lemma maint_ok : forall fuel acc r, sim [] r r -> aligned r -> bytesLeft r <= Z.of_nat fuel -> errok (fun _ => True) (maint_loop fuel acc r).
Proof.
  induction fuel as [|f IH]; intros acc r H A L; cbn [maint_loop]; pose proof (proj2 (sim_left [] r r H)) as N.
  - destruct (Z.eqb_spec (bytesLeft r) 0); [exact I|lia].
  - destruct (Z.eqb_spec (bytesLeft r) 0); [exact I|].
    eapply errok_bind; [apply rel_errok, (rel_rbyte []); [exact H|exact A]|]. intros [ty q1]. cbn [fst snd]. intros (T1 & S1 & A1 & L1 & P1).
    destruct (ime_type_ok ty); cbn [negb]; [|apply de_value].
    eapply errok_bind; [apply rel_errok, (rel_rbyte []); [exact S1|exact A1]|]. intros [len q2]. cbn [fst snd]. intros (T2 & S2 & A2 & L2 & P2).
    eapply errok_bind; [apply rel_errok, (rel_rvalue0 [] len); [exact S2|exact A2|lia]|]. intros [bs q3]. cbn [fst snd]. intros (B3 & Z3 & S3 & A3 & L3 & P3).
    eapply errok_bind; [apply ime_load_ok; exact B3|]. intros v _. apply IH; [exact S3|exact A3|lia].
Qed.

Lemma optionData_ok d r ty : sim [] r r -> aligned r -> aget "optionType" d = Some (VU 7 ty) ->
  errok (fun vr => isinst (fst vr) TOptData = true /\ sim [] (snd vr) (snd vr) /\ aligned (snd vr) /\ bytesLeft (snd vr) < bytesLeft r) (parse_optionData d r).
Proof.
  intros H A G. unfold parse_optionData.
  eapply errok_bind; [apply rel_errok, (rel_rbyte []); [exact H|exact A]|]. intros [len q1]. cbn [fst snd]. intros (T1 & S1 & A1 & L1 & P1).
  eapply errok_bind; [apply rel_errok, (rel_rvalue0 [] len); [exact S1|exact A1|lia]|]. intros [bs q2]. cbn [fst snd]. intros (B2 & Z2 & S2 & A2 & L2 & P2).
  rewrite G. cbn [to_int bind]. destruct (new_reader_ok bs B2) as (S3 & A3 & L3).
  assert (END : bytesLeft q2 < bytesLeft r) by lia.
  repeat match goal with |- errok _ (match ?z with _ => _ end) => destruct z end; try exact de_attr.
  - eapply errok_bind; [apply maint_ok; [exact S3|exact A3|unfold zlen in L3; lia]|]. intros l _. cbn. auto.
  - eapply errok_bind; [apply rel_errok, (parse_sub_rel [] CEncap); [vm_compute; reflexivity|exact S3|exact A3]|].
    intros [o q]. cbn [fst snd]. intros ((dd & ->) & _). cbn. auto.
  - eapply errok_bind; [apply rel_errok, (rel_rvalue0 [] 3); [exact S3|exact A3|lia]|]. intros [b q] _. cbn. auto.
Qed.

Definition hdr_vals (l : list (Z * val)) : Prop := Forall (fun kv => isinst (snd kv) TOptData = true) l.

Lemma option_ok r : sim [] r r -> aligned r -> 0 < bytesLeft r ->
  errok (fun dr => (exists ty, aget "optionType" (fst dr) = Some (VU 7 ty)) /\
                   (forall v, aget "optionData" (fst dr) = Some v -> isinst v TOptData = true) /\
                   sim [] (snd dr) (snd dr) /\ aligned (snd dr) /\ bytesLeft (snd dr) < bytesLeft r)
        (parse_attrs hk1 ds0 sub_Zip_ZIPPacketOption sub_Zip_ZIPPacketOption [] r).
Proof.
  intros H A L. unfold aligned in A. unfold sub_Zip_ZIPPacketOption at 2. cbn [parse_attrs a_parse a_ty a_name ds0].
  assert (PL : forall q : reader, sim [] q q -> bytesLeft q = zlen (r_val q) - r_pos q / 8).
  { intros q (_ & _ & _ & P). unfold bytesLeft. rewrite startByte_div by lia. reflexivity. }
  destruct (Z.eqb_spec (bytesLeft r) 0); [lia|].
  pose proof (rel_rbits [] 1 r r H ltac:(lia) ltac:(lia)) as R1.
  assert (V1 : forall z q, rbits 1 r = Ok (z, q) -> r_val q = r_val r).
  { unfold rbits. intros z q X. destruct (peekByte r); cbn [bind] in X; [|discriminate]. destruct (8 - 1 <? 0); [discriminate|].
    injection X as _ <-. reflexivity. }
  destruct (rbits 1 r) as [[z1 q1]|e]; cbn [bind]; [|exact (proj2 R1)]. destruct R1 as (_ & Z1 & S1 & P1 & LL1 & LE1). specialize (V1 _ _ eq_refl).
  cbn [setattr find_attr]. change (setattr sub_Zip_ZIPPacketOption "critical" (VInt z1) []) with (Ok ([("critical"%string, VF (Z.land z1 1))], Some (VF (Z.land z1 1)))).
  cbn [bind].
  assert (LQ1 : bytesLeft q1 = bytesLeft r) by (rewrite !PL by assumption; rewrite V1; lia).
  destruct (Z.eqb_spec (bytesLeft q1) 0); [lia|].
  pose proof (rel_rbits [] 7 q1 q1 S1 ltac:(lia) ltac:(lia)) as R2.
  assert (V2 : forall z q, rbits 7 q1 = Ok (z, q) -> r_val q = r_val q1).
  { unfold rbits. intros z q X. destruct (peekByte q1); cbn [bind] in X; [|discriminate]. destruct (8 - 7 <? 0); [discriminate|].
    injection X as _ <-. reflexivity. }
  destruct (rbits 7 q1) as [[z2 q2]|e]; cbn [bind]; [|exact (proj2 R2)]. destruct R2 as (_ & Z2 & S2 & P2 & LL2 & LE2). specialize (V2 _ _ eq_refl).
  change (setattr sub_Zip_ZIPPacketOption "optionType" (VInt z2) [("critical"%string, VF (Z.land z1 1))])
    with (Ok ([("critical"%string, VF (Z.land z1 1)); ("optionType"%string, VU 7 z2)], Some (VU 7 z2))). cbn [bind].
  assert (LQ2 : bytesLeft q2 = bytesLeft r - 1) by (rewrite !PL by assumption; rewrite V2, V1; lia).
  assert (A2 : aligned q2) by (unfold aligned; lia).
  destruct (Z.eqb_spec (bytesLeft q2) 0).
  - cbn [errok fst snd]. split; [eexists; reflexivity|]. split; [intros v X; discriminate X|]. split; [exact S2|]. split; [exact A2|lia].
  - cbn [hk1]. eapply errok_bind; [apply (optionData_ok _ _ z2); [exact S2|exact A2|reflexivity]|]. intros [v q3]. cbn [fst snd]. intros (I3 & S3 & A3 & L3).
    unfold setattr. change (find_attr "optionData" sub_Zip_ZIPPacketOption) with (Some (mkA "optionData" TOptData (Some HOptData) None)).
    cbn [a_ty]. unfold setattr_coerce. rewrite I3. cbn [bind aget dget String.eqb Ascii.eqb Bool.eqb]. cbn [errok fst snd aset dset bind].
    split; [eexists; reflexivity|]. split; [|split; [exact S3|split; [exact A3|lia]]]. intros w X. cbn in X. injection X as <-. exact I3.
Qed.

Lemma hdr_loop_ok : forall fuel acc r, sim [] r r -> aligned r -> bytesLeft r <= Z.of_nat fuel -> hdr_vals acc ->
  errok hdr_vals (hdr_loop fuel acc r).
Proof.
  induction fuel as [|f IH]; intros acc r H A L V; cbn [hdr_loop]; pose proof (proj2 (sim_left [] r r H)) as N.
  - destruct (Z.gtb_spec (bytesLeft r) 0); [lia|exact V].
  - destruct (Z.gtb_spec (bytesLeft r) 0); [|exact V].
    eapply errok_bind; [apply option_ok; [exact H|exact A|lia]|]. intros [d q]. cbn [fst snd]. intros ((ty & T) & OD & S1 & A1 & L1).
    rewrite T. cbn [to_int bind]. apply IH; [exact S1|exact A1|lia|]. apply dset_forall; [|exact V].
    intros k. cbn [snd]. destruct (aget "optionData" d) eqn:E; [apply OD; reflexivity|reflexivity].
Qed.

Lemma hdr_setstate l : hdr_vals l -> forall acc, errok (fun _ => True) (vardict_setstate option_type_ok optdata_coerce l acc).
Proof.
  induction 1 as [|[k v] l E F IH]; intros acc; cbn [vardict_setstate]; [exact I|]. destruct (option_type_ok k); [|apply de_value].
  unfold optdata_coerce. cbn [snd] in E. rewrite E. cbn [bind]. apply IH.
Qed.
Lemma vok_hdr D l : hdr_vals l -> vok D THdr (VDict l).
Proof.
  intros V. split; [|intros k X; discriminate X]. unfold setattr_coerce. cbn [isinst has_setstate setstate items bind].
  pose proof (hdr_setstate l V []) as E. destruct (vardict_setstate option_type_ok optdata_coerce l []); cbn [bind]; [|exact E].
  split; [intros X; discriminate X|cbn; lia].
Qed.

Lemma rel_rvalue_left pre k r r' : sim pre r r' -> aligned r' -> 0 <= startByte r' + k ->
  rel (fun bs q q' => bytes_ok bs /\ sim pre q q' /\ aligned q' /\ r_pos q' = r_pos r' + 8 * k /\ bytesLeft q' = bytesLeft r' - k)
      (rvalue k r) (rvalue k r').
Proof.
  intros H A K. eapply rel_mono; [|apply (rel_rvalue pre k r r' H A K)]. cbn beta. intros bs q q' (B & L & SM & AL & P & V).
  split; [exact B|]. split; [exact SM|]. split; [exact AL|]. split; [exact P|]. unfold bytesLeft. rewrite V.
  destruct SM as (_ & _ & _ & PQ). destruct H as (_ & _ & _ & PR). rewrite !startByte_div by lia. rewrite P. lia.
Qed.

Lemma hdr_rel pre D r r' : sim pre r r' -> aligned r' ->
  rel (fun v q q' => vok D THdr v /\ after pre 0 THdr r' q q') (hdr_deserialize r) (hdr_deserialize r').
Proof.
  intros H A. unfold hdr_deserialize.
  eapply rel_bind; [apply (rel_rbyte pre); [exact H|exact A]|]. cbn beta. intros len q1 q1' (T1 & S1 & A1 & L1 & P1).
  eapply rel_bind; [apply (rel_rvalue_left pre (len - 1)); [exact S1|exact A1|]|].
  { destruct (sim_start pre _ _ S1) as [_ ?]. destruct S1 as (_ & _ & _ & ?). rewrite startByte_div by lia.
    destruct H as (_ & _ & _ & ?). lia. }
  cbn beta. intros bs q2 q2' (B2 & S2 & A2 & P2 & L2).
  eapply errok_same; [apply hdr_loop_ok with (acc := []); [apply (proj1 (new_reader_ok bs B2))|reflexivity| |constructor]|].
  { rewrite (proj2 (proj2 (new_reader_ok bs B2))). unfold zlen. lia. }
  intros l V. cbn [rel]. split; [reflexivity|]. split; [apply vok_hdr; exact V|].
  apply after_aligned; [reflexivity|exact S2|exact A2|lia|lia].
Qed.

(** ** the parse_ methods *)
Lemma agi_cmd_rel pre : forall fuel i len acc r r', sim pre r r' -> aligned r' ->
  rel (fun _ q q' => sim pre q q') (agi_cmd_loop fuel i len acc r) (agi_cmd_loop fuel i len acc r').
Proof.
  induction fuel as [|f IH]; intros i len acc r r' H A; cbn [agi_cmd_loop]; [cbn [rel]; auto|].
  destruct (i <? len); [|cbn [rel]; auto].
  eapply rel_bind; [apply (rel_rbyte pre); [exact H|exact A]|]. cbn beta. intros c q1 q1' (T1 & S1 & A1 & L1 & P1).
  eapply rel_bind; [apply (rel_rbyte pre); [exact S1|exact A1]|]. cbn beta. intros m q2 q2' (T2 & S2 & A2 & L2 & P2).
  apply IH; assumption.
Qed.
Lemma agi_groups_rel pre : forall n acc r r', sim pre r r' -> aligned r' ->
  rel (fun _ q q' => sim pre q q') (agi_groups_loop n acc r) (agi_groups_loop n acc r').
Proof.
  induction n as [|n IH]; intros acc r r' H A; cbn [agi_groups_loop]; [cbn [rel]; auto|].
  eapply rel_bind; [apply (parse_sub_rel pre CGroupInfo); [vm_compute; reflexivity|exact H|exact A]|]. cbn beta.
  intros g q q' (_ & S1 & A1 & _). apply IH; assumption.
Qed.

Definition numdecl (n : string) (seen : list attr) : bool := match declared n seen with Some t => num_ty t | None => false end.
Definition nil_b {A} (l : list A) : bool := match l with [] => true | _ => false end.
Definition ty_is (a : attr) (t : aty) : bool :=
  match a_ty a, t with
  | TInt false 1, TInt false 1 | TMsg, TMsg | THdr, THdr | TList, TList | TDsk, TDsk | TPyInt, TPyInt => true
  | _, _ => false
  end.
Definition hook_ok (seen : list attr) (a : attr) (post : list attr) : bool :=
  match a_parse a with
  | None => match a_ty a with TBytes | TNodes | TSensors | TMsg => nil_b post | THdr => false | _ => true end
  | Some HNodeFailing => ty_is a (TInt false 1)
  | Some HSupCommand => ty_is a TMsg && nil_b post
  | Some HHeaderExt => ty_is a THdr
  | Some HNodeAddCC => ty_is a TList && nil_b post && numdecl "nodeInfoLength" seen && (40 <=? lowbits seen)
  | Some HAgiCmdList => ty_is a TList && nil_b post
  | Some HAgiGroups => ty_is a TList && nil_b post && numdecl "groupCount" seen
  | Some HIterDsk => ty_is a TDsk && numdecl "dskLengthN" seen
  | Some HCfgValue => ty_is a TPyInt && numdecl "size" seen
  | Some HOptData => false
  end.
Fixpoint hooks_ok (seen todo : list attr) : bool :=
  match todo with [] => true | a :: post => hook_ok seen a post && hooks_ok (seen ++ [a]) post end.
Lemma registry_hooks_ok s : In s registry -> hooks_ok [] (s_attrs s) = true.
Proof.
  assert (H : forallb (fun s => hooks_ok [] (s_attrs s)) registry = true) by (vm_compute; reflexivity).
  rewrite forallb_forall in H. apply H.
Qed.
Lemma hooks_ok_at : forall pre0 seen a post, hooks_ok pre0 (seen ++ a :: post) = true -> hook_ok (pre0 ++ seen) a post = true.
Proof.
  intros pre0 seen. revert pre0. induction seen as [|b seen IH]; intros pre0 a post H; cbn [app hooks_ok] in H.
  - apply andb_prop in H as [H _]. rewrite app_nil_r. exact H.
  - apply andb_prop in H as [_ H]. apply IH in H. rewrite <- app_assoc in H. exact H.
Qed.

Lemma depth_message_coerce D v : is_message v = true -> (depth v <= D)%nat -> vok D TMsg v.
Proof.
  intros IM L. split; [|intros k X; discriminate X]. unfold setattr_coerce.
  assert (isinst v TMsg = true) as ->. { destruct v as [| | | | | | | | | | | | | | | | | | | | | | | | |c d]; try discriminate IM. destruct c; try discriminate IM; reflexivity. }
  split; [intros X; discriminate X|exact L].
Qed.

Section Hooks.
  Variable B : Z.
  Variable D : nat.
  Variables dsm dsm' : reader -> res (val * reader).
  Hypothesis rec : forall pre r r', sim pre r r' -> aligned r' -> bytesLeft r' <= B ->
    rel (fun v q q' => is_message v = true /\ (depth v <= D)%nat) (dsm r) (dsm' r').

  Lemma int_attr_ok all seen post n d : all = seen ++ post -> numdecl n seen = true -> dict_ok seen d -> dgood D all d ->
    exists z, int_attr n d = Ok z /\ 0 <= z.
  Proof.
    intros EA ND DO [DG _]. unfold numdecl in ND. specialize (DO n). unfold int_attr.
    destruct (declared n seen) as [t|] eqn:DS; [|discriminate]. destruct DO as (v & G & _). rewrite G.
    assert (DA : declared n all = Some t) by (rewrite EA, declared_app, DS; reflexivity).
    destruct (DG n v t G DA) as [NT _]. apply NT. exact ND.
  Qed.
  Lemma vok_list l : vok D TList (VList l).
  Proof. split; [|intros k X; discriminate X]. cbn. split; [intros X; discriminate X|cbn; lia]. Qed.
  Lemma vok_int z : vok D TPyInt (VInt z).
  Proof. split; [|intros k X; discriminate X]. cbn. split; [intros X; discriminate X|cbn; lia]. Qed.
  Lemma vok_u8 z : 0 <= z -> vok D (TInt false 1) (VInt z).
  Proof. intros. split; [|intros k X; discriminate X]. cbn. split; [intros _; exists z; auto|cbn; lia]. Qed.
  Lemma vok_dsk bs : zlen bs = 0 \/ zlen bs = 16 -> vok D TDsk (VPBytes bs).
  Proof.
    intros L. split; [|intros k X; discriminate X]. unfold setattr_coerce. cbn [isinst has_setstate setstate dsk_setstate].
    destruct L as [->| ->]; cbn [Z.eqb Pos.eqb orb]; split; try (intros X; discriminate X); cbn; lia.
  Qed.

  Lemma step_rel pre s : In s registry -> forall seen a post, s_attrs s = seen ++ a :: post -> forall d r r', dict_ok seen d -> dgood D (s_attrs s) d -> sim pre r r' ->
      fits_here (a_ty a) r' -> bytesLeft r' <> 0 -> bytesLeft r' <= B -> 16 + lowbits seen <= r_pos r' ->
      rel (fun v q q' => vok D (a_ty a) v /\ (post <> [] \/ false = true -> after pre (wlow a) (a_ty a) r' q q'))
          (rd (hk2 dsm) (ds2 dsm) a d r) (rd' (hk2 dsm') (ds2 dsm') a d r').
  Proof.
    intros Hs seen a post EA d r r' DO DG H F N L P.
    assert (HO : hook_ok seen a post = true).
    { pose proof (registry_hooks_ok s Hs) as HO. rewrite EA in HO. apply hooks_ok_at in HO. exact HO. }
    unfold rd, rd', wlow. unfold hook_ok in HO. destruct (a_parse a) as [h|].
    - assert (LAST : nil_b post = true -> forall Q : Prop, post <> [] \/ false = true -> Q).
      { intros X Q [Y|Y]; [destruct post; [contradiction Y; reflexivity|discriminate X]|discriminate Y]. }
      destruct h; cbn [hk2].
      + (* HNodeFailing *) unfold ty_is in HO. destruct (a_ty a) as [[|] [|[|?]]| | | | | | | | | | | | | | | | | | |] eqn:T; try discriminate HO. clear HO.
        unfold fits_here in F; cbn [sub_width] in F.
        rewrite (proj1 (sim_left pre r r' H)).
        assert (R1 : sim pre (if bytesLeft r' =? 16 then advance (8 * 15) r else r) (if bytesLeft r' =? 16 then advance (8 * 15) r' else r')
                     /\ aligned (if bytesLeft r' =? 16 then advance (8 * 15) r' else r')
                     /\ bytesLeft (if bytesLeft r' =? 16 then advance (8 * 15) r' else r') <= bytesLeft r'
                     /\ r_pos r' <= r_pos (if bytesLeft r' =? 16 then advance (8 * 15) r' else r')).
        { destruct (Z.eqb_spec (bytesLeft r') 16); [|repeat split; try apply H; try exact F; lia].
          destruct H as (E1 & E2 & B1 & P1). unfold sim, advance, aligned, rok, bytesLeft in *. cbn [r_val r_pos].
          rewrite startByte_div in e by lia. rewrite !startByte_div by (cbn [r_pos]; lia). cbn [r_pos]. unfold aligned in F.
          repeat split; try assumption; lia. }
        destruct R1 as (S1 & A1 & L1 & P1).
        eapply rel_bind; [apply (rel_rbyte pre); [exact S1|exact A1]|]. cbn beta. intros b q q' (T2 & S2 & A2 & L2 & P2).
        cbn [rel]. split; [reflexivity|]. split; [apply vok_u8; lia|]. intros _. apply after_aligned; [reflexivity|exact S2|exact A2|lia|lia].
      + (* HSupCommand *) apply andb_prop in HO as [TY NP]. unfold ty_is in TY. destruct (a_ty a) as [[|] [|[|?]]| | | | | | | | | | | | | | | | | | |] eqn:T; try discriminate TY.
        unfold fits_here in F; cbn [sub_width] in F.
        eapply rel_bind; [apply (rel_rbyte pre); [exact H|exact F]|]. cbn beta. intros len q1 q1' (T1 & S1 & A1 & L1 & P1).
        eapply rel_bind; [apply (rel_rvalue0 pre len); [exact S1|exact A1|lia]|]. cbn beta. intros bs q2 q2' (B2 & Z2 & S2 & A2 & L2 & P2).
        destruct (new_reader_ok bs B2) as (S3 & A3 & L3). destruct (sim_left pre _ _ S2) as [_ NN].
        eapply rel_bind; [apply (rec [] (new_reader bs) (new_reader bs)); [exact S3|exact A3|lia]|]. cbn beta.
        intros m q q' [IM DM]. cbn [rel]. split; [reflexivity|]. split; [apply depth_message_coerce; assumption|]. apply LAST. exact NP.
      + (* HHeaderExt *) unfold ty_is in HO. destruct (a_ty a) as [[|] [|[|?]]| | | | | | | | | | | | | | | | | | |] eqn:T; try discriminate HO. clear HO.
        unfold fits_here in F; cbn [sub_width] in F.
        assert (E : rel (fun v q q' => vok D THdr v /\ (post <> [] \/ false = true -> after pre 0 THdr r' q q')) (Ok (VDict [], r)) (Ok (VDict [], r'))).
        { cbn [rel]. split; [reflexivity|]. split; [apply vok_hdr; constructor|]. intros _. apply after_aligned; [reflexivity|exact H|exact F|lia|lia]. }
        destruct (aget "headerExtIncluded" d) as [v|]; [|exact E]. destruct (truthy v); [|exact E].
        eapply rel_mono; [|apply (hdr_rel pre D); [exact H|exact F]]. cbn beta. intros x q q' [V AF]. split; [exact V|]. intros _. exact AF.
      + (* HNodeAddCC *) apply andb_prop in HO as [HO LB]. apply andb_prop in HO as [HO ND]. apply andb_prop in HO as [TY NP].
        unfold ty_is in TY. destruct (a_ty a) as [[|] [|[|?]]| | | | | | | | | | | | | | | | | | |] eqn:T; try discriminate TY.
        unfold fits_here in F; cbn [sub_width] in F.
        destruct (int_attr_ok _ seen (a :: post) _ d EA ND DO DG) as (n & -> & Hn). cbn [bind].
        rewrite (proj1 (sim_left pre r r' H)). destruct (n - 7 >? bytesLeft r').
        * destruct (rel_remaining pre r r' H) as (E & B1 & _). destruct (remaining r) as [bs q], (remaining r') as [bs' q']. cbn [fst] in *. subst bs'.
          cbn [rel]. split; [reflexivity|]. split; [apply vok_list|]. apply LAST. exact NP.
        * eapply rel_bind; [apply (rel_rvalue_left pre (n - 7)); [exact H|exact F|]|].
          { destruct H as (_ & _ & _ & ?). rewrite startByte_div by lia. lia. }
          cbn beta. intros bs q q' _. cbn [rel]. split; [reflexivity|]. split; [apply vok_list|]. apply LAST. exact NP.
      + (* HAgiCmdList *) apply andb_prop in HO as [TY NP].
        unfold ty_is in TY. destruct (a_ty a) as [[|] [|[|?]]| | | | | | | | | | | | | | | | | | |] eqn:T; try discriminate TY.
        unfold fits_here in F; cbn [sub_width] in F.
        eapply rel_bind; [apply (rel_rbyte pre); [exact H|exact F]|]. cbn beta. intros len q1 q1' (T1 & S1 & A1 & L1 & P1).
        eapply rel_bind; [apply agi_cmd_rel; [exact S1|exact A1]|]. cbn beta. intros l q q' _.
        cbn [rel]. split; [reflexivity|]. split; [apply vok_list|]. apply LAST. exact NP.
      + (* HAgiGroups *) apply andb_prop in HO as [HO ND]. apply andb_prop in HO as [TY NP].
        unfold ty_is in TY. destruct (a_ty a) as [[|] [|[|?]]| | | | | | | | | | | | | | | | | | |] eqn:T; try discriminate TY.
        unfold fits_here in F; cbn [sub_width] in F.
        destruct (int_attr_ok _ seen (a :: post) _ d EA ND DO DG) as (n & -> & Hn). cbn [bind].
        eapply rel_bind; [apply agi_groups_rel; [exact H|exact F]|]. cbn beta. intros l q q' _.
        cbn [rel]. split; [reflexivity|]. split; [apply vok_list|]. apply LAST. exact NP.
      + (* HIterDsk *) apply andb_prop in HO as [TY ND].
        unfold ty_is in TY. destruct (a_ty a) as [[|] [|[|?]]| | | | | | | | | | | | | | | | | | |] eqn:T; try discriminate TY.
        unfold fits_here in F; cbn [sub_width] in F.
        destruct (int_attr_ok _ seen (a :: post) _ d EA ND DO DG) as (n & -> & Hn). cbn [bind].
        unfold dsk_deserializeN. destruct (Z.eqb_spec n 0).
        * cbn [rel]. split; [reflexivity|]. split; [apply vok_dsk; left; reflexivity|]. intros _. apply after_aligned; [reflexivity|exact H|exact F|lia|lia].
        * destruct (Z.eqb_spec n 16) as [->|]; cbn [negb]; [|apply rel_err, de_value].
          eapply rel_bind; [apply (rel_rvalue0 pre 16); [exact H|exact F|lia]|]. cbn beta. intros bs q q' (B1 & Z1 & S1 & A1 & L1 & P1).
          cbn [rel]. split; [reflexivity|]. split; [apply vok_dsk; right; exact Z1|]. intros _. apply after_aligned; [reflexivity|exact S1|exact A1|lia|lia].
      + (* HCfgValue *) apply andb_prop in HO as [TY ND].
        unfold ty_is in TY. destruct (a_ty a) as [[|] [|[|?]]| | | | | | | | | | | | | | | | | | |] eqn:T; try discriminate TY.
        unfold fits_here in F; cbn [sub_width] in F.
        destruct (int_attr_ok _ seen (a :: post) _ d EA ND DO DG) as (n & -> & Hn). cbn [bind].
        eapply rel_bind; [apply (rel_rvalue0 pre n); [exact H|exact F|lia]|]. cbn beta. intros bs q q' (B1 & Z1 & S1 & A1 & L1 & P1).
        cbn [rel]. split; [reflexivity|]. split; [apply vok_int|]. intros _. apply after_aligned; [reflexivity|exact S1|exact A1|lia|lia].
      + discriminate HO.
    - assert (PLAIN : a_ty a <> THdr -> a_ty a <> TMsg -> (post <> [] -> closed (a_ty a) = true) ->
        rel (fun v q q' => vok D (a_ty a) v /\ (post <> [] \/ false = true -> after pre (wmin (a_ty a)) (a_ty a) r' q q'))
          (ds2 dsm (a_ty a) r) (ds2 dsm' (a_ty a) r')).
      { intros N1 N2 C. assert (forall x q, ds2 x (a_ty a) q = ds0 (a_ty a) q) as E by (intros x q; destruct (a_ty a); try reflexivity; contradiction).
        rewrite !E. eapply rel_mono; [|apply (rel_ds0 pre D); assumption]. cbn beta. intros v q q' [V AF]. split; [exact V|].
        intros [NP|X]; [|discriminate X]. apply AF, C, NP. }
      destruct (a_ty a) eqn:T; try (apply PLAIN; [discriminate|discriminate|intros NP; first [reflexivity|destruct post; [contradiction NP; reflexivity|discriminate HO]]]).
      cbn [ds2]. unfold fits_here in F; cbn [sub_width] in F. eapply rel_mono; [|apply (rec pre); assumption]. cbn beta. intros v q q' [IM DM].
        split; [apply depth_message_coerce; assumption|]. intros [NP|X]; [destruct post; [contradiction NP; reflexivity|discriminate HO]|discriminate X].
  Qed.
End Hooks.

Lemma depth_obj D s d : Forall (fun p => (depth (snd p) <= D)%nat) d -> (depth (VObj (CMsg s) d) <= S D)%nat.
Proof.
  intros F. cbn [depth]. apply le_n_S. induction F as [|[n v] d H F IH]; [lia|]. cbn [snd] in H. lia.
Qed.

(** ** the whole decoder *)
Lemma deserialize_rel : forall f g pre r r', sim pre r r' -> aligned r' -> Z.max 0 (bytesLeft r') / 2 < Z.of_nat f -> (f <= g)%nat ->
  rel (fun v q q' => is_message v = true /\ (depth v <= Z.to_nat (Z.max 0 (bytesLeft r') / 2 + 1))%nat) (deserialize f r) (deserialize g r').
Proof.
  induction f as [|f IH]; intros g pre r r' H A L G; [lia|]. destruct g as [|g]; [lia|]. cbn [deserialize].
  rewrite (proj1 (sim_left pre r r' H)). destruct (Z.ltb_spec (bytesLeft r') 2).
  - cbn [rel]. split; [reflexivity|]. split; [reflexivity|]. cbn [depth]. lia.
  - eapply rel_bind; [apply (rel_rbyte pre); [exact H|exact A]|]. cbn beta. intros c q1 q1' (T1 & S1 & A1 & L1 & P1).
    eapply rel_bind; [apply (rel_rbyte pre); [exact S1|exact A1]|]. cbn beta. intros m q2 q2' (T2 & S2 & A2 & L2 & P2). cbv zeta.
    destruct (lookup _) as [s|] eqn:LK.
    + apply find_some in LK as [Hs _].
      eapply rel_bind.
      * apply (loop_rel pre (Z.to_nat (Z.max 0 (bytesLeft q2') / 2 + 1)) (hk2 (deserialize f)) (hk2 (deserialize g)) (ds2 (deserialize f)) (ds2 (deserialize g)) (s_attrs s)
                  (bytesLeft q2') false 16) with (seen := []).
        -- apply (step_rel (bytesLeft q2') _ (deserialize f) (deserialize g)); [|exact Hs].
           intros pre2 x x' SX AX LX. eapply rel_mono; [|apply (IH g pre2); [exact SX|exact AX| |lia]].
           ++ cbn beta. intros v y y' [IM DM]. split; [exact IM|]. eapply Nat.le_trans; [exact DM|]. lia.
           ++ lia.
        -- reflexivity.
        -- apply registry_dup_ok. exact Hs.
        -- unfold aligned in A2. rewrite A2. apply registry_aligned. exact Hs.
        -- intros n. reflexivity.
        -- split; [|constructor]. intros n v t X. discriminate X.
        -- exact S2.
        -- lia.
        -- cbn [lowbits]. destruct H as (_ & _ & _ & ?). lia.
      * cbn beta. intros d q q' [[_ DG] _]. cbn [rel]. split; [reflexivity|]. split; [reflexivity|].
        pose proof (depth_obj _ s d DG). eapply Nat.le_trans; [eassumption|]. lia.
    + cbn [rel]. split; [reflexivity|]. split; [reflexivity|]. cbn [depth]. lia.
Qed.

(** ** C07 *)
Lemma decode_total bs : bytes_ok bs ->
  match decode bs with
  | Ok m => is_message m = true /\ Z.of_nat (depth m) <= zlen bs / 2 + 1
  | Err e => decode_error e
  end.
Proof.
  intros B. destruct (new_reader_ok bs B) as (S0 & A0 & L0). pose proof (zlen_nonneg bs).
  pose proof (deserialize_rel (S (length bs)) (S (length bs)) [] _ _ S0 A0 ltac:(unfold zlen in *; lia) ltac:(lia)) as R.
  unfold decode. destruct (deserialize (S (length bs)) (new_reader bs)) as [[m r]|e]; cbn [bind rel] in *.
  - destruct R as (_ & IM & DM). split; [exact IM|]. rewrite L0 in DM. lia.
  - apply R.
Qed.
Lemma decode_fuel bs f : bytes_ok bs -> zlen bs / 2 < Z.of_nat f ->
  (do (m, _) <- deserialize f (new_reader bs); Ok m) = decode bs.
Proof.
  intros B F. destruct (new_reader_ok bs B) as (S0 & A0 & L0). pose proof (zlen_nonneg bs).
  pose proof (deserialize_rel f (Nat.max f (S (length bs))) [] _ _ S0 A0 ltac:(unfold zlen in *; lia) ltac:(lia)) as R1.
  pose proof (deserialize_rel (S (length bs)) (Nat.max f (S (length bs))) [] _ _ S0 A0 ltac:(unfold zlen in *; lia) ltac:(lia)) as R2.
  unfold decode. destruct (deserialize (Nat.max f (S (length bs))) (new_reader bs)) as [[m r]|e], (deserialize f (new_reader bs)) as [[m1 r1]|e1],
    (deserialize (S (length bs)) (new_reader bs)) as [[m2 r2]|e2]; cbn [bind rel] in *; try contradiction.
  - destruct R1 as [-> _], R2 as [-> _]. reflexivity.
  - destruct R1 as [-> _], R2 as [-> _]. reflexivity.
Qed.
