(** Decoding of flat attribute lists. *)
From Coq Require Import String ZArith List Bool Lia ZifyBool ZifyNat.
From Verif Require Import Py BitStream Schema Registry Codec SpecBits BitLemmas ReaderLemmas SpecDecode EncodeProofs.
Import ListNotations.
Open Scope list_scope.
Open Scope Z_scope.
Local Ltac Zify.zify_post_hook ::= Z.div_mod_to_equations.

(** ** dictionaries *)
Lemma aget_aset_same n v d : aget n (aset n v d) = Some v.
Proof.
  unfold aget, aset. induction d as [|[k x] d IH]; cbn; [rewrite String.eqb_refl; reflexivity|].
  destruct (String.eqb n k) eqn:E; cbn; rewrite E; [reflexivity|exact IH].
Qed.
Lemma aget_aset_other n n' v d : n <> n' -> aget n (aset n' v d) = aget n d.
Proof.
  intros N. unfold aget, aset. induction d as [|[k x] d IH]; cbn.
  - destruct (String.eqb_spec n n'); [contradiction|reflexivity].
  - destruct (String.eqb_spec n' k) as [->|]; cbn.
    + destruct (String.eqb_spec n k); [contradiction|reflexivity].
    + destruct (String.eqb n k); [reflexivity|exact IH].
Qed.

Lemma find_attr_declared n l : find_attr n l = None /\ declared n l = None \/
  exists a, find_attr n l = Some a /\ declared n l = Some (a_ty a) /\ a_name a = n.
Proof.
  induction l as [|a l IH]; cbn; [auto|].
  destruct (String.eqb_spec n (a_name a)); [right; exists a; auto|exact IH].
Qed.

(** ** one fixed size field *)
Definition fits_here (t : aty) (r : reader) : Prop :=
  match sub_width t with Some n => 1 <= n /\ r_pos r mod 8 + n <= 8 | None => aligned r end.

Lemma aligned_of r : aligned r -> r_pos r mod 8 = 0. Proof. auto. Qed.

Lemma advance_pos k r : r_pos (advance k r) = r_pos r + k.
Proof. reflexivity. Qed.

Lemma ds0_field t n r c tl :
  width t = Some n -> rok r -> fits_here t r -> rest r = c ++ tl -> length c = n ->
  exists v0 r', ds0 t r = Ok (v0, r') /\ rok r' /\ rest r' = tl /\ r_pos r' = r_pos r + Z.of_nat n
    /\ (exists v, setattr_coerce t v0 = Ok v /\ reads t c v)
    /\ (forall k, t = TRes k -> v0 = VInt (num c)).
Proof.
  intros W R F E L.
  destruct t; cbn [width sub_width fits_here] in *; try discriminate; injection W as W;
    unfold fits_here in F; cbn [sub_width] in F.
  - (* TInt *)
    destruct (rvalue_ok (Z.of_nat size) r c tl) as (bs & E1 & B & EB & Lb & R1 & R2 & R3); try assumption; try lia.
    exists (VI signed size (from_bytes signed bs)), (advance (Z.of_nat size * 8) r). cbn [ds0]. rewrite E1. cbn [bind].
    split; [reflexivity|]. split; [exact R1|]. split; [exact R3|]. split; [rewrite advance_pos; lia|].
    split; [|discriminate].
    exists (VI signed size (from_bytes signed bs)). split.
    + unfold setattr_coerce. cbn [isinst]. rewrite Bool.eqb_reflx, Nat.eqb_refl. reflexivity.
    + destruct signed; unfold from_bytes; [rewrite from_bytes_s_snum|rewrite from_bytes_u_num]; try assumption; rewrite EB; constructor.
  - (* TUb *)
    destruct (rbits_ok n0 r c tl) as (E1 & R1 & R2); try assumption; try lia.
    exists (VInt (num c)), (advance n0 r). cbn [ds0]. rewrite E1. cbn [bind].
    repeat (split; [first [reflexivity|assumption|rewrite advance_pos; lia]|]). split; [|discriminate].
    exists (VU n0 (num c)). split; [reflexivity|constructor].
  - destruct (rbits_ok n0 r c tl) as (E1 & R1 & R2); try assumption; try lia.
    exists (VInt (num c)), (advance n0 r). cbn [ds0]. rewrite E1. cbn [bind].
    repeat (split; [first [reflexivity|assumption|rewrite advance_pos; lia]|]). split; [|discriminate].
    exists (VB n0 (num c)). split; [reflexivity|constructor].
  - destruct (rbits_ok 1 r c tl) as (E1 & R1 & R2); try assumption; try lia.
    exists (VInt (num c)), (advance 1 r). cbn [ds0]. rewrite E1. cbn [bind].
    repeat (split; [first [reflexivity|assumption|rewrite advance_pos; lia]|]). split; [|discriminate].
    exists (VF (num c)). split; [|constructor].
    unfold setattr_coerce. cbn [isinst has_setstate construct to_int bind]. do 2 f_equal.
    destruct c as [|x [|y c]]; cbn in L; try lia. destruct x; reflexivity.
  - destruct (rbits_ok n0 r c tl) as (E1 & R1 & R2); try assumption; try lia.
    exists (VInt (num c)), (advance n0 r). cbn [ds0]. rewrite E1. cbn [bind].
    repeat (split; [first [reflexivity|assumption|rewrite advance_pos; lia]|]). split; [|intros k _; reflexivity].
    exists (VB n0 (num c)). split; [reflexivity|constructor].
  - (* TDsk *)
    destruct (rvalue_ok 16 r c tl) as (bs & E1 & B & EB & Lb & R1 & R2 & R3); try assumption; try lia.
    exists (VPBytes bs), (advance (16 * 8) r). cbn [ds0]. unfold dsk_deserializeN. cbn [Z.eqb negb Pos.eqb]. rewrite E1. cbn [bind].
    repeat (split; [first [reflexivity|assumption|rewrite advance_pos; lia]|]). split; [|discriminate].
    exists (VDsk bs). split; [|constructor; assumption].
    unfold setattr_coerce. cbn [isinst has_setstate setstate dsk_setstate]. rewrite Lb. reflexivity.
  - (* TIPv6 *)
    destruct (rvalue_ok 16 r c tl) as (bs & E1 & B & EB & Lb & R1 & R2 & R3); try assumption; try lia.
    exists (VIPv6 (from_bytes_u bs)), (advance (16 * 8) r). cbn [ds0]. rewrite E1. cbn [bind].
    repeat (split; [first [reflexivity|assumption|rewrite advance_pos; lia]|]). split; [|discriminate].
    exists (VIPv6 (from_bytes_u bs)). split; [reflexivity|]. rewrite from_bytes_u_num, EB by assumption. constructor.
Qed.

Lemma ds0_eof t n r : width t = Some n -> rok r -> fits_here t r -> rest r <> [] ->
  (length (rest r) < n)%nat -> ds0 t r = Err EEOF.
Proof.
  intros W R F N L.
  destruct t; cbn [width] in *; try discriminate; injection W as W; unfold fits_here in F; cbn [sub_width] in F;
    try (pose proof (rest_enough n0 r) as X; specialize (X ltac:(lia) R N ltac:(lia)); lia).
  - cbn [ds0]. rewrite rvalue_eof; [reflexivity|assumption|lia|assumption].
  - pose proof (rest_enough 1 r) as X; specialize (X ltac:(lia) R N ltac:(lia)); lia.
  - cbn [ds0]. unfold dsk_deserializeN. cbn [Z.eqb negb Pos.eqb]. rewrite rvalue_eof; [reflexivity|assumption|lia|assumption].
  - cbn [ds0]. rewrite rvalue_eof; [reflexivity|assumption|lia|assumption].
Qed.

(** ** duplicate names are only used for reserved fields *)
Definition is_res (t : aty) : bool := match t with TRes _ => true | _ => false end.
Fixpoint dup_ok (seen : list attr) (l : list attr) : bool :=
  match l with
  | [] => true
  | a :: l' =>
      match declared (a_name a) seen with
      | None => dup_ok (seen ++ [a]) l'
      | Some t => is_res t && is_res (a_ty a) && match a_parse a with None => true | _ => false end && dup_ok (seen ++ [a]) l'
      end
  end.
Lemma registry_dup_ok s : In s registry -> dup_ok [] (s_attrs s) = true.
Proof.
  assert (H : forallb (fun s => dup_ok [] (s_attrs s)) registry = true) by (vm_compute; reflexivity).
  rewrite forallb_forall in H. apply H.
Qed.

Lemma declared_app n l1 l2 : declared n (l1 ++ l2) = match declared n l1 with Some t => Some t | None => declared n l2 end.
Proof. induction l1 as [|a l1 IH]; cbn; [reflexivity|]. destruct (String.eqb n (a_name a)); [reflexivity|exact IH]. Qed.

Lemma dup_ok_app pre post : forall seen, dup_ok seen (pre ++ post) = true -> dup_ok (seen ++ pre) post = true.
Proof.
  induction pre as [|p pre IH]; intros seen DU; [rewrite app_nil_r; exact DU|].
  cbn [app dup_ok] in DU. replace (seen ++ p :: pre) with ((seen ++ [p]) ++ pre) by (rewrite <- app_assoc; reflexivity).
  apply IH. destruct (declared (a_name p) seen); [|exact DU]. apply andb_prop in DU as [_ DU]. exact DU.
Qed.

(** dictionary of a decoder that has processed the fields [seen] *)
Definition dict_ok (seen : list attr) (d : adict) : Prop :=
  forall n, match declared n seen with
            | None => aget n d = None
            | Some t => exists v, aget n d = Some v /\ (is_res t = true -> exists k z, v = VB k z)
            end.

Lemma setattr_fresh all n t v0 v d :
  declared n all = Some t -> setattr_coerce t v0 = Ok v -> aget n d = None ->
  setattr all n v0 d = Ok (aset n v d, Some v).
Proof.
  intros D C G. unfold setattr. destruct (find_attr_declared n all) as [[_ X]|(a & E1 & E2 & E3)]; [congruence|].
  rewrite E1. assert (a_ty a = t) by congruence. subst t. rewrite C. cbn [bind]. rewrite G. reflexivity.
Qed.
Lemma setattr_again_res all n k z v0 d k0 z0 :
  declared n all = Some (TRes k) -> v0 = VInt z -> aget n d = Some (VB k0 z0) ->
  setattr all n v0 d = Ok (aset n (VB k z) d, Some (VB k z)).
Proof.
  intros D -> G. unfold setattr. destruct (find_attr_declared n all) as [[_ X]|(a & E1 & E2 & E3)]; [congruence|].
  rewrite E1. assert (a_ty a = TRes k) as -> by congruence. unfold setattr_coerce. cbn [isinst has_setstate construct to_int bind].
  rewrite G. cbn [py_eq is_int bind]. reflexivity.
Qed.

(** storing one attribute when the fields [seen] were stored before *)
Lemma setattr_step all seen a post v0 v d :
  all = seen ++ a :: post -> dup_ok seen (a :: post) = true ->
  dict_ok seen d -> setattr_coerce (a_ty a) v0 = Ok v ->
  (forall k, a_ty a = TRes k -> exists z, v0 = VInt z) ->
  exists v', setattr all (a_name a) v0 d = Ok (aset (a_name a) v' d, Some v') /\ dict_ok (seen ++ [a]) (aset (a_name a) v' d)
    /\ (declared (a_name a) seen = None -> v' = v)
    /\ (declared (a_name a) seen <> None -> exists k k' z, declared (a_name a) all = Some (TRes k) /\ a_ty a = TRes k' /\ v0 = VInt z /\ v' = VB k z).
Proof.
  intros EA DU DO C RES. cbn [dup_ok] in DU.
  pose proof (DO (a_name a)) as G.
  assert (NX : forall v', (is_res match declared (a_name a) seen with Some t => t | None => a_ty a end = true -> exists k z, v' = VB k z) ->
    dict_ok (seen ++ [a]) (aset (a_name a) v' d)).
  { intros v' V n. rewrite declared_app. cbn [declared]. specialize (DO n).
    destruct (String.eqb_spec n (a_name a)) as [->|N].
    - destruct (declared (a_name a) seen) as [t|]; (exists v'; split; [apply aget_aset_same|assumption]).
    - rewrite aget_aset_other by assumption. destruct (declared n seen); exact DO. }
  destruct (declared (a_name a) seen) as [t|] eqn:D.
  - apply andb_prop in DU as [DU _]. apply andb_prop in DU as [DU _]. apply andb_prop in DU as [D1 D2].
    destruct t; try discriminate. destruct (a_ty a) as [| | | |k'| | | | | | | | | | | | | | |] eqn:T; try discriminate.
    destruct (RES k' eq_refl) as [z ->].
    destruct G as (v1 & G1 & G2). destruct (G2 eq_refl) as (k0 & z0 & ->).
    exists (VB n z). assert (DA : declared (a_name a) all = Some (TRes n)). { rewrite EA, declared_app, D. reflexivity. }
    split; [exact (setattr_again_res all (a_name a) n z (VInt z) d k0 z0 DA eq_refl G1)|].
    split; [apply NX; intros _; eauto|]. split; [discriminate|]. intros _. exists n, k', z. auto.
  - assert (DA : declared (a_name a) all = Some (a_ty a)).
    { rewrite EA, declared_app, D. cbn. rewrite String.eqb_refl. reflexivity. }
    exists v. split; [exact (setattr_fresh _ _ _ _ _ _ DA C G)|].
    split; [apply NX|split; [auto|intros X; contradiction]].
    intros IR. destruct (a_ty a) as [| | | |k'| | | | | | | | | | | | | | |]; try discriminate.
    destruct (RES _ eq_refl) as [z ->]. unfold setattr_coerce in C. cbn in C. injection C as <-. eauto.
Qed.

(** ** a run of fixed size fields *)
Lemma width_sub t n k : width t = Some n -> sub_width t = Some k -> 1 <= k -> Z.of_nat n = k.
Proof. destruct t; cbn; intros; try discriminate; try (injection H as <-; injection H0 as <-; lia). Qed.
Lemma width_whole t n : width t = Some n -> sub_width t = None -> Z.of_nat n mod 8 = 0.
Proof. destruct t; cbn; intros; try discriminate; injection H as <-; lia. Qed.

Section Flat.
  Variable hk : phook -> adict -> reader -> res (val * reader).
  Variable ds : aty -> reader -> res (val * reader).
  Hypothesis ds_flat : forall t n, width t = Some n -> ds t = ds0 t.
  Hypothesis ds_bytes : ds TBytes = ds0 TBytes.

  Fixpoint fixed (l : list attr) : bool :=
    match l with
    | [] => true
    | a :: l' => match a_parse a, width (a_ty a) with None, Some _ => fixed l' | _, _ => false end
    end.
  Fixpoint bitsum (l : list attr) : nat :=
    match l with [] => 0 | a :: l' => (match width (a_ty a) with Some n => n | None => 0 end + bitsum l')%nat end.

  (** the dictionary after the fields [l] have been cut into [cs] *)
  Definition stored (all l : list attr) (cs : list (list bool)) (d d' : adict) : Prop :=
    forall n, match last_piece n l cs with
              | None => aget n d' = aget n d
              | Some c => exists v t, aget n d' = Some v /\ declared n all = Some t /\ reads t c v
              end.

  Fixpoint al_from (l : list attr) (o : Z) : option Z :=
    match l with
    | [] => Some o
    | a :: l' =>
        match sub_width (a_ty a) with
        | Some n => if (1 <=? n) && (o + n <=? 8) then al_from l' ((o + n) mod 8) else None
        | None => if o =? 0 then al_from l' 0 else None
        end
    end.

  Lemma al_al_from pre post o : al (pre ++ post) o = true -> exists o', al_from pre o = Some o' /\ al post o' = true.
  Proof.
    revert o; induction pre as [|a pre IH]; intros o A; cbn [app al al_from] in *; [eauto|].
    destruct (sub_width (a_ty a)) as [n|].
    - apply andb_prop in A as [A1 A2]. rewrite A1. apply IH. exact A2.
    - apply andb_prop in A as [A1 A2]. rewrite A1. apply IH. exact A2.
  Qed.

  Lemma parse_fixed all post :
    forall pre seen d r o,
    all = seen ++ pre ++ post -> dup_ok seen (pre ++ post) = true -> fixed pre = true ->
    al_from pre (r_pos r mod 8) = Some o -> rok r -> dict_ok seen d ->
    match cut pre (rest r) with
    | None => parse_attrs hk ds all (pre ++ post) d r = Err EEOF
    | Some cs =>
        exists d' r', stored all pre cs d d' /\ rok r' /\
          dict_ok (seen ++ firstn (length cs) pre) d' /\
          ((length cs < length pre)%nat /\ parse_attrs hk ds all (pre ++ post) d r = Ok (d', r') \/
           length cs = length pre /\ parse_attrs hk ds all (pre ++ post) d r = parse_attrs hk ds all post d' r'
           /\ rest r' = skipn (bitsum pre) (rest r) /\ (bitsum pre <= length (rest r))%nat
           /\ r_pos r' = r_pos r + Z.of_nat (bitsum pre) /\ r_pos r' mod 8 = o)
    end.
  Proof.
    induction pre as [|a pre IH]; intros seen d r o EA DU FX AL R DO.
    - cbn [cut app]. exists d, r. split; [intros n; reflexivity|]. split; [exact R|].
      split; [cbn; rewrite app_nil_r; exact DO|]. right.
      cbn in *. repeat split; try assumption; try lia. congruence.
    - cbn [fixed] in FX. destruct (a_parse a) eqn:PH; [discriminate|]. destruct (width (a_ty a)) as [n|] eqn:W; [|discriminate].
      cbn [app parse_attrs cut].
      destruct (rest r) as [|x0 xs0] eqn:RE.
      { assert (bytesLeft r = 0) as -> by (apply rest_nil_iff; assumption). cbn [Z.eqb].
        exists d, r. split; [intros m; reflexivity|]. split; [exact R|].
        split; [cbn; rewrite app_nil_r; exact DO|]. left. split; [cbn; lia|reflexivity]. }
      assert (NE : rest r <> []) by congruence. rewrite <- RE. clear RE x0 xs0.
      destruct (Z.eqb_spec (bytesLeft r) 0) as [B0|B0]. { apply rest_nil_iff in B0; [contradiction|exact R]. }
      rewrite PH, W.
      assert (FH : fits_here (a_ty a) r).
      { unfold fits_here. cbn [al_from] in AL. destruct (sub_width (a_ty a)) as [k|].
        - destruct ((1 <=? k) && (r_pos r mod 8 + k <=? 8)) eqn:X; [lia|discriminate].
        - destruct (Z.eqb_spec (r_pos r mod 8) 0); [assumption|discriminate]. }
      rewrite (ds_flat _ _ W).
      destruct (Nat.ltb_spec (length (rest r)) n) as [LT|GE].
      { rewrite (ds0_eof _ _ _ W R FH NE LT). cbn [bind]. destruct (rest r); [contradiction|reflexivity]. }
      destruct (ds0_field (a_ty a) n r (firstn n (rest r)) (skipn n (rest r)) W R FH) as (v0 & r1 & E1 & R1 & RE1 & P1 & (v & C1 & RD1) & RES1).
      { symmetry. apply firstn_skipn. } { apply firstn_length_le. exact GE. }
      rewrite E1. cbn [bind].
      destruct (setattr_step all seen a (pre ++ post) v0 v d EA DU DO C1) as (v' & E2 & DO2 & F1 & F2).
      { intros k T. exists (num (firstn n (rest r))). eapply RES1; exact T. }
      rewrite E2. cbn [bind].
      assert (DU2 : dup_ok (seen ++ [a]) (pre ++ post) = true).
      { cbn [app dup_ok] in DU. destruct (declared (a_name a) seen); [|exact DU]. apply andb_prop in DU as [_ DU]; exact DU. }
      assert (AL1 : al_from pre (r_pos r1 mod 8) = Some o).
      { cbn [al_from] in AL. rewrite P1. destruct (sub_width (a_ty a)) as [k|] eqn:SW.
        - destruct ((1 <=? k) && (r_pos r mod 8 + k <=? 8)) eqn:X; [|discriminate].
          rewrite (width_sub _ _ _ W SW) by lia. replace ((r_pos r + k) mod 8) with ((r_pos r mod 8 + k) mod 8) by lia. exact AL.
        - pose proof (width_whole _ _ W SW). destruct (Z.eqb_spec (r_pos r mod 8) 0); [|discriminate].
          replace ((r_pos r + Z.of_nat n) mod 8) with 0 by lia. exact AL. }
      assert (EA2 : all = (seen ++ [a]) ++ pre ++ post) by (rewrite EA, <- app_assoc; reflexivity).
      specialize (IH (seen ++ [a]) (aset (a_name a) v' d) r1 o EA2 DU2 FX AL1 R1 DO2).
      rewrite RE1 in IH.
      assert (READ : exists t, declared (a_name a) all = Some t /\ reads t (firstn n (rest r)) v').
      { destruct (declared (a_name a) seen) as [t0|] eqn:DS.
        - destruct (F2 ltac:(congruence)) as (k & k' & z & DA & T & V0 & ->). exists (TRes k). split; [exact DA|].
          rewrite (RES1 _ T) in V0. injection V0 as <-. constructor.
        - exists (a_ty a). rewrite (F1 eq_refl). split; [|exact RD1]. rewrite EA, declared_app, DS. cbn. rewrite String.eqb_refl. reflexivity. }
      assert (CUT : forall X, match rest r with [] => X | _ :: _ =>
         if (length (rest r) <? n)%nat then None
         else match cut pre (skipn n (rest r)) with Some cs => Some (firstn n (rest r) :: cs) | None => None end end
         = match cut pre (skipn n (rest r)) with Some cs => Some (firstn n (rest r) :: cs) | None => None end).
      { intros X. destruct (rest r) eqn:RR; [contradiction|]. rewrite <- RR in *. destruct (Nat.ltb_spec (length (rest r)) n); [lia|reflexivity]. }
      destruct (rest r) as [|x xs] eqn:RR; [contradiction|]. rewrite <- RR in *.
      destruct (cut pre (skipn n (rest r))) as [cs|]; [|exact IH].
      destruct IH as (d' & r' & ST & R' & DO' & ALT). exists d', r'.
      split.
      { intros m. cbn [last_piece]. specialize (ST m). destruct (last_piece m pre cs); [exact ST|].
        destruct (String.eqb_spec m (a_name a)) as [->|NM].
        - rewrite aget_aset_same in ST. destruct READ as (t & D & RDD). exists v', t. auto.
        - rewrite aget_aset_other in ST by assumption. exact ST. }
      split; [exact R'|]. split; [cbn [length firstn]; rewrite <- app_assoc in DO'; exact DO'|].
      cbn [length bitsum]. rewrite W. destruct ALT as [[L E]|(L & E & RS & LB & PP & OO)].
      + left. split; [lia|exact E].
      + right. split; [lia|]. split; [exact E|]. split.
        * rewrite RS, skipn_skipn'. reflexivity.
        * split; [|split; [rewrite PP, P1; lia|exact OO]]. rewrite skipn_length in LB. lia.
  Qed.

  (** a whole flat class *)
  Lemma parse_flat all r : flat all = true -> dup_ok [] all = true -> al all 0 = true -> rok r -> aligned r ->
    match cut all (rest r) with
    | None => parse_attrs hk ds all all [] r = Err EEOF
    | Some cs => exists d r', parse_attrs hk ds all all [] r = Ok (d, r') /\ stored all all cs [] d
    end.
  Proof.
    intros FL DU AL R A.
    assert (SPLIT : exists pre post, all = pre ++ post /\ fixed pre = true /\
      (post = [] \/ exists a, post = [a] /\ a_ty a = TBytes /\ a_parse a = None)).
    { clear DU AL. revert FL. induction all as [|a l IH]; intros FL.
      - exists [], []. auto.
      - cbn [flat] in FL. destruct (a_parse a) eqn:P; [destruct (width (a_ty a)); discriminate|].
        destruct (width (a_ty a)) eqn:W.
        + destruct (IH FL) as (pre & post & E & F & X). exists (a :: pre), post. split; [cbn; congruence|].
          split; [cbn [fixed]; rewrite P, W; exact F|exact X].
        + destruct (a_ty a) eqn:T; try discriminate. destruct l; [|discriminate].
          exists [], [a]. split; [reflexivity|]. split; [reflexivity|]. right. eauto. }
    destruct SPLIT as (pre & post & EA & FX & PO).
    rewrite EA in AL. destruct (al_al_from pre post 0 AL) as (o & AF & AP). rewrite <- (aligned_of r A) in AF. rewrite <- EA in AL.
    assert (D0 : dict_ok [] []) by (intros n; reflexivity).
    pose proof (parse_fixed all post pre [] [] r o EA ltac:(rewrite <- EA; exact DU) FX AF R D0) as P.
    rewrite <- EA in P.
    destruct PO as [->|(a & -> & TY & PA)].
    - rewrite app_nil_r in EA. subst pre. destruct (cut all (rest r)) as [cs|]; [|exact P].
      destruct P as (d & r' & ST & R' & _ & [[L E]|(L & E & _)]); [eauto|]. cbn [parse_attrs] in E. eauto.
    - (* ends with a byte string *)
      assert (AA : o = 0). { cbn [al] in AP. rewrite TY in AP. cbn [sub_width] in AP. lia. }
      assert (CUT : forall b, cut (pre ++ [a]) b = match cut pre b with
                | None => None
                | Some cs => if (length cs <? length pre)%nat then Some cs
                             else match skipn (bitsum pre) b with [] => Some cs | t => Some (cs ++ [t]) end end).
      { clear - FX TY. induction pre as [|p pre IH]; intros b.
        - cbn. rewrite TY. cbn. destruct b; reflexivity.
        - cbn [fixed] in FX. destruct (a_parse p); [discriminate|]. destruct (width (a_ty p)) as [n|] eqn:W; [|discriminate].
          cbn [app cut bitsum length]. rewrite W. destruct b as [|x b].
          { destruct (Nat.ltb_spec (length (@nil (list bool))) (S (length pre))); [reflexivity|cbn in *; lia]. }
          destruct (length (x :: b) <? n)%nat; [reflexivity|]. rewrite (IH FX). rewrite <- skipn_skipn'.
          destruct (cut pre (skipn n (x :: b))) as [cs|]; [|reflexivity]. cbn [length].
          change (S (length cs) <? S (length pre))%nat with (length cs <? length pre)%nat.
          destruct (length cs <? length pre)%nat; [reflexivity|].
          destruct (skipn (bitsum pre) (skipn n (x :: b))); reflexivity. }
      rewrite EA. rewrite CUT. rewrite <- EA. destruct (cut pre (rest r)) as [cs|]; [|exact P].
      destruct P as (d & r' & ST & R' & DO & ALT).
      assert (LP : forall n cs', (length cs' <= length pre)%nat -> last_piece n (pre ++ [a]) cs' = last_piece n pre cs').
      { clear. intros n. induction pre as [|p pre IH]; intros cs' L.
        - destruct cs'; [reflexivity|cbn in L; lia].
        - destruct cs' as [|c cs']; [reflexivity|]. cbn [last_piece app]. rewrite IH by (cbn in L; lia). reflexivity. }
      destruct ALT as [[L E]|(L & E & RS & LB & PP & OO)].
      + destruct (Nat.ltb_spec (length cs) (length pre)); [|lia]. exists d, r'. split; [exact E|].
        intros n. specialize (ST n). rewrite EA, LP by lia. rewrite <- EA. exact ST.
      + destruct (Nat.ltb_spec (length cs) (length pre)); [lia|]. rewrite <- RS.
        assert (AL' : aligned r') by (unfold aligned; lia).
        rewrite L, firstn_all in DO. cbn [app] in DO.
        cbn [parse_attrs] in E. rewrite PA in E.
        destruct (rest r') as [|x xs] eqn:RR.
        * assert (bytesLeft r' = 0) as B0 by (apply rest_nil_iff; assumption). rewrite B0 in E. cbn [Z.eqb] in E.
          exists d, r'. split; [exact E|]. intros n. specialize (ST n). rewrite EA, LP by lia. rewrite <- EA. exact ST.
        * destruct (Z.eqb_spec (bytesLeft r') 0) as [B0|B0]. { apply rest_nil_iff in B0; [congruence|exact R']. }
          rewrite TY, ds_bytes in E. cbn [ds0] in E.
          destruct (remaining_ok r' R' AL') as (bs & EB & BB & BT). destruct (remaining r') as [bs' r2] eqn:RM. cbn in EB. subst bs'.
          cbn [bind] in E.
          destruct (setattr_step all pre a [] (VPBytes bs) (VBytes bs) d EA) as (v' & E2 & DO2 & F1 & F2).
          { rewrite EA in DU. exact (dup_ok_app pre [a] [] DU). }
          { exact DO. }
          { rewrite TY. reflexivity. }
          { intros k T. congruence. }
          rewrite E2 in E. cbn [bind parse_attrs] in E. eexists _, _. split; [exact E|].
          assert (DN : declared (a_name a) pre = None).
          { destruct (declared (a_name a) pre) eqn:D; [|reflexivity]. destruct (F2 ltac:(congruence)) as (? & ? & ? & _ & T & _). congruence. }
          rewrite (F1 DN).
          intros n. rewrite EA.
          assert (LAST : last_piece n (pre ++ [a]) (cs ++ [x :: xs]) = if String.eqb n (a_name a) then Some (x :: xs) else last_piece n pre cs).
          { clear - L DN. revert cs L. induction pre as [|p pre IH]; intros cs L.
            - destruct cs; [|discriminate]. cbn. reflexivity.
            - destruct cs as [|c cs]; [discriminate|]. cbn [app last_piece]. cbn [declared] in DN.
              destruct (String.eqb_spec (a_name a) (a_name p)) as [|NE]; [discriminate|].
              rewrite IH by (try assumption; cbn in L; lia).
              destruct (String.eqb n (a_name a)); reflexivity. }
          rewrite LAST. specialize (ST n). destruct (String.eqb_spec n (a_name a)) as [->|NE].
          -- exists (VBytes bs), TBytes. rewrite aget_aset_same. split; [reflexivity|]. split.
             ++ rewrite declared_app, DN. cbn. rewrite String.eqb_refl, TY. reflexivity.
             ++ constructor; [exact BB|congruence].
          -- rewrite aget_aset_other by assumption. rewrite <- EA. exact ST.
  Qed.
End Flat.
