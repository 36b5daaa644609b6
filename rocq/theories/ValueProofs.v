(** C14-C18, C21, C22: association members, DSK text, measured values, acknowledgements, configuration, AGI. *)
From Coq Require Import String ZArith List Bool Lia ZifyBool ZifyNat.
From Verif Require Import Py BitStream Schema Registry Codec Text SpecBits BitLemmas ReaderLemmas SpecWire SpecDecode SpecRound SpecTotal
  EncodeProofs DecodeLemmas DecodeProofs RoundTrip CodecProofs ParseRel TotalProofs ByteReader SpecFields HeaderProofs FieldProofs.
Import ListNotations.
Open Scope list_scope.
Open Scope string_scope.
Open Scope list_scope.
Open Scope Z_scope.
Local Ltac Zify.zify_post_hook ::= Z.div_mod_to_equations.
Local Ltac in_reg := unfold registry; repeat (first [left; reflexivity | right]).

(** ** decimal text *)
Lemma digits_dec : forall f n acc p, 0 <= n < 2 ^ Z.of_nat f -> (0 < f)%nat -> digits_acc (dec_digits f n acc) 0 p = digits_acc acc n true.
Proof.
  induction f as [|f IH]; intros n acc p R F; [lia|]. cbn [dec_digits]. destruct (Z.ltb_spec n 10).
  - cbn [digits_acc]. assert (is_digit (48 + n) = true) as -> by (unfold is_digit; lia). f_equal. lia.
  - destruct f as [|f']; [change (2 ^ Z.of_nat 1) with 2 in R; lia|].
    rewrite IH; [| |lia].
    + cbn [digits_acc]. assert (is_digit (48 + n mod 10) = true) as -> by (unfold is_digit; lia). f_equal. lia.
    + rewrite Nat2Z.inj_succ, Z.pow_succ_r in R by lia. lia.
Qed.
Lemma dec_fuel_ok n : 0 <= n -> n < 2 ^ Z.of_nat (dec_fuel n) /\ (0 < dec_fuel n)%nat.
Proof.
  intros H. unfold dec_fuel. split; [|lia]. rewrite Nat2Z.inj_succ, Z2Nat.id by apply Z.log2_nonneg.
  destruct (Z.eq_dec n 0) as [->|N]; [reflexivity|]. apply Z.log2_spec. lia.
Qed.
Lemma dec_digits_all : forall f n acc, 0 <= n -> Forall (fun c => is_digit c = true) acc -> Forall (fun c => is_digit c = true) (dec_digits f n acc).
Proof.
  induction f as [|f IH]; intros n acc R A; cbn [dec_digits]; [exact A|]. destruct (Z.ltb_spec n 10).
  - constructor; [unfold is_digit; lia|exact A].
  - apply IH; [lia|]. constructor; [unfold is_digit; lia|exact A].
Qed.
Lemma lstrip_none s : Forall (fun c => is_space c = false) s -> lstrip s = s.
Proof. intros F. destruct F as [|c s H F]; [reflexivity|]. cbn [lstrip]. rewrite H. reflexivity. Qed.
Lemma strip_none s : Forall (fun c => is_space c = false) s -> strip s = s.
Proof.
  intros F. unfold strip. rewrite (lstrip_none s F), lstrip_none; [apply rev_involutive|]. apply Forall_rev. exact F.
Qed.
Lemma digit_not_space c : is_digit c = true -> is_space c = false. Proof. unfold is_digit, is_space. lia. Qed.
Lemma str_digits z : 0 <= z -> Forall (fun c => is_digit c = true) (str_of_Z z).
Proof. intros H. unfold str_of_Z. destruct (Z.ltb_spec z 0); [lia|]. apply dec_digits_all; [exact H|constructor]. Qed.
Lemma py_int_digits s z : Forall (fun c => is_digit c = true) s -> digits_acc s 0 false = Some z -> py_int s = Ok z.
Proof.
  intros F D. unfold py_int. rewrite strip_none by (eapply Forall_impl; [|exact F]; exact digit_not_space).
  destruct F as [|c s H F]; [discriminate|].
  assert (c <> 45 /\ c <> 43) as [N1 N2] by (unfold is_digit in H; lia).
  destruct c as [|p|p]; try (rewrite D; reflexivity).
  do 6 (destruct p as [p|p|]; try (rewrite D; reflexivity); try contradiction).
Qed.
Lemma py_int_str z : 0 <= z -> py_int (str_of_Z z) = Ok z.
Proof.
  intros H. apply py_int_digits; [exact (str_digits z H)|]. unfold str_of_Z. destruct (Z.ltb_spec z 0); [lia|].
  destruct (dec_fuel_ok z H) as [F1 F2]. rewrite digits_dec by (lia || assumption). reflexivity.
Qed.

(** ** splitting what was joined *)
Lemma split_on_app sep s : forall cur t, Forall (fun c => c <> sep) s -> split_on sep (s ++ sep :: t) cur = (rev cur ++ s) :: split_on sep t [].
Proof.
  induction s as [|c s IH]; intros cur t F; cbn [app split_on].
  - rewrite Z.eqb_refl, app_nil_r. reflexivity.
  - inversion F; subst. destruct (Z.eqb_spec c sep); [contradiction|]. rewrite IH by assumption. cbn [rev]. rewrite <- app_assoc. reflexivity.
Qed.
Lemma split_on_end sep s : forall cur, Forall (fun c => c <> sep) s -> split_on sep s cur = [rev cur ++ s].
Proof.
  induction s as [|c s IH]; intros cur F; cbn [split_on]; [rewrite app_nil_r; reflexivity|].
  inversion F; subst. destruct (Z.eqb_spec c sep); [contradiction|]. rewrite IH by assumption. cbn [rev]. rewrite <- app_assoc. reflexivity.
Qed.
Lemma split_join sep : forall l, l <> [] -> Forall (Forall (fun c => c <> sep)) l -> split sep (join [sep] l) = l.
Proof.
  unfold split. induction l as [|x l IH]; intros N F; [contradiction|]. inversion F; subst. destruct l as [|y l].
  - cbn [join]. rewrite split_on_end by assumption. reflexivity.
  - change (join [sep] (x :: y :: l)) with (x ++ [sep] ++ join [sep] (y :: l)). cbn [app]. rewrite split_on_app by assumption. cbn [rev app].
    f_equal. apply IH; [discriminate|assumption].
Qed.

(** ** C14 *)
Lemma node_text_ok p : 0 <= fst p -> match snd p with Some e => 0 <= e | None => True end -> node_of_val (VStr (node_text p)) = Ok p.
Proof.
  intros H1 H2. destruct p as [n [e|]]; cbn [fst snd] in *; unfold node_text; cbn [fst snd node_of_val].
  - assert (existsb (Z.eqb 58) (str_of_Z n ++ [58] ++ str_of_Z e) = true) as ->.
    { apply existsb_exists. exists 58. split; [|reflexivity]. apply in_or_app. right. left. reflexivity. }
    assert (D : forall z, 0 <= z -> Forall (fun c => c <> 58) (str_of_Z z)).
    { intros z Hz. eapply Forall_impl; [|exact (str_digits z Hz)]. cbn. intros c C. unfold is_digit in C. lia. }
    cbn [app]. rewrite split_on_app by auto. rewrite split_on_end by auto. cbn [rev app join].
    rewrite (py_int_str e H2). cbn [bind]. rewrite (py_int_str n H1). reflexivity.
  - assert (existsb (Z.eqb 58) (str_of_Z n) = false) as ->.
    { apply not_true_is_false. intros E. apply existsb_exists in E as (c & I & Q). apply Z.eqb_eq in Q. subst.
      pose proof (str_digits n H1) as F. rewrite Forall_forall in F. specialize (F _ I). discriminate. }
    rewrite (py_int_str n H1). reflexivity.
Qed.
Lemma nodes_text l : members_ok l -> nodes_setstate (nodes_getstate l) = Ok (VNodes l).
Proof.
  intros M. unfold nodes_setstate, nodes_getstate. cbn [iter_val bind].
  enough (map_res node_of_val (map (fun p => VStr (node_text p)) l) = Ok l) as -> by reflexivity.
  induction M as [|p l H M IH]; cbn [map map_res]; [reflexivity|]. rewrite node_text_ok.
  - cbn [bind]. rewrite IH. reflexivity.
  - lia.
  - destruct (snd p); lia || exact I.
Qed.

Definition is_plain (p : Z * option Z) : bool := match snd p with None => true | Some _ => false end.
Definition is_pair (p : Z * option Z) : bool := match snd p with None => false | Some _ => true end.
Lemma plain_of_pairs l : plain_ids (filter is_pair l) = [].
Proof. unfold plain_ids. induction l as [|[n [e|]] l IH]; cbn; auto. Qed.
Lemma plain_of_plain l : plain_ids (filter is_plain l) = plain_ids l.
Proof. unfold plain_ids. induction l as [|[n [e|]] l IH]; cbn; [reflexivity|exact IH|f_equal; exact IH]. Qed.
Lemma pairs_of_pairs l : endpoint_ids (filter is_pair l) = endpoint_ids l.
Proof. induction l as [|[n [e|]] l IH]; cbn; [reflexivity|do 2 f_equal; exact IH|exact IH]. Qed.
Lemma pairs_of_plain l x : endpoint_ids (filter is_plain l ++ x) = endpoint_ids x.
Proof. induction l as [|[n [e|]] l IH]; cbn; [reflexivity|exact IH|exact IH]. Qed.
Lemma wire_order_bytes l : member_bytes (wire_order l) = member_bytes l.
Proof.
  unfold member_bytes. change (wire_order l) with (filter is_plain l ++ filter is_pair l).
  rewrite pairs_of_plain, pairs_of_pairs. f_equal. unfold plain_ids at 1. rewrite filter_app, map_app.
  fold (plain_ids (filter is_plain l)). fold (plain_ids (filter is_pair l)). rewrite plain_of_pairs, plain_of_plain, app_nil_r. reflexivity.
Qed.
Lemma wire_order_in l p : In p (wire_order l) <-> In p l.
Proof. unfold wire_order. rewrite in_app_iff, !filter_In. destruct (snd p); intuition discriminate. Qed.
Lemma wire_order_ok l : members_ok l -> members_ok (wire_order l).
Proof. unfold members_ok. rewrite !Forall_forall. intros H p I. apply H, wire_order_in, I. Qed.
Lemma wire_order_canonical l : (forall n, In (n, None) l -> n <> 0) -> canonical (wire_order l).
Proof.
  intros H. exists (plain_ids l), (flat_map (fun p : Z * option Z => match snd p with Some e => [(fst p, e)] | None => [] end) l). split.
  - unfold wire_order, plain_ids. f_equal.
    + clear H. induction l as [|[n [e|]] l IH]; cbn; [reflexivity|exact IH|f_equal; exact IH].
    + clear H. induction l as [|[n [e|]] l IH]; cbn; [reflexivity|f_equal; exact IH|exact IH].
  - unfold plain_ids. apply Forall_forall. intros n I. apply in_map_iff in I as ([m [e|]] & <- & I); apply filter_In in I as [I X]; [discriminate|]. apply H, I.
Qed.

Lemma fields_members n x x' : n <> "size" -> member_bytes x' = member_bytes x -> members_ok x' ->
  forall d l b, fields d l b -> aget n d = Some (VNodes x) -> (forall a, In a l -> a_name a = n -> a_ty a = TNodes) ->
  fields (aset n (VNodes x') d) l b.
Proof.
  intros NS EB MO d l. induction l as [|a l IH]; intros b F G T; inversion F; subst; constructor.
  - pose proof (T a (or_introl eq_refl)) as Ta.
    match goal with H : field d a _ |- _ => rename H into FA end.
    destruct (string_dec (a_name a) n) as [E|N].
    + specialize (Ta E). inversion FA; subst; try congruence.
      * rewrite Ta in *. match goal with H : field_bits TNodes _ _ |- _ => inversion H; subst end.
        eapply F_set; [apply aget_aset_same|assumption|]. rewrite Ta. replace (member_bytes l0) with (member_bytes x') by congruence. constructor. exact MO.
    + inversion FA; subst.
      * apply F_unset; [rewrite aget_aset_other by assumption; assumption|assumption].
      * eapply F_set; [rewrite aget_aset_other by assumption; eassumption|assumption|assumption].
      * eapply F_hdr; [rewrite aget_aset_other by assumption; eassumption|assumption|assumption].
      * eapply F_cmd; [rewrite aget_aset_other by assumption; eassumption|assumption|assumption|assumption].
      * eapply F_nocmd; [rewrite aget_aset_other by assumption; eassumption|assumption|assumption|assumption].
      * eapply F_cfg; try eassumption; [rewrite aget_aset_other by assumption; assumption|rewrite aget_aset_other by congruence; assumption].
  - apply IH; [assumption|assumption|]. intros a' I. apply T. right. exact I.
Qed.

Definition members_class (s : schema) : Prop := In s registry /\ exists a, In a (s_attrs s) /\ a_ty a = TNodes.
Definition members_sweep (s : schema) : bool :=
  negb (existsb (fun a => match a_ty a with TNodes => true | _ => false end) (s_attrs s)) ||
  forallb (fun a => match a_parse a, a_compose a, a_ty a with
                    | None, None, TNodes => String.eqb (a_name a) "nodes"
                    | None, None, TMsg => false
                    | None, None, _ => negb (String.eqb (a_name a) "nodes")
                    | _, _, _ => false end) (s_attrs s).
Lemma members_attrs s : members_class s -> forall a, In a (s_attrs s) ->
  a_parse a = None /\ a_compose a = None /\ a_ty a <> TMsg /\ (a_ty a = TNodes <-> a_name a = "nodes").
Proof.
  intros [Hs (a0 & I0 & T0)] a I.
  assert (W : forallb members_sweep registry = true) by (vm_compute; reflexivity).
  rewrite forallb_forall in W. specialize (W s Hs). unfold members_sweep in W. apply orb_prop in W as [W|W].
  - apply negb_true_iff in W. assert (existsb (fun a => match a_ty a with TNodes => true | _ => false end) (s_attrs s) = true); [|congruence].
    apply existsb_exists. exists a0. rewrite T0. auto.
  - rewrite forallb_forall in W. specialize (W a I). destruct (a_parse a); [discriminate|]. destruct (a_compose a); [discriminate|].
    split; [reflexivity|]. split; [reflexivity|].
    destruct (a_ty a); try discriminate; (split; [discriminate|]);
      destruct (String.eqb_spec (a_name a) "nodes"); try discriminate; (split; [try discriminate; auto|intros; congruence || reflexivity]).
Qed.
Lemma members_round_trip s d b l : members_class s -> encodes (VObj (CMsg s) d) b -> aget "nodes" d = Some (VNodes l) ->
  (forall n, In (n, None) l -> n <> 0) ->
  exists bs d', compose (VObj (CMsg s) d) = Ok bs /\ decode bs = Ok (VObj (CMsg s) d') /\
    (l <> [] -> aget "nodes" d' = Some (VNodes (wire_order l))) /\
    (forall n t, n <> "nodes" -> declared n (s_attrs s) = Some t -> same_val (read_attr t n d) (read_attr t n d')) /\
    (l = [] -> same_val (VNodes []) (getattr (VObj (CMsg s) d') "nodes")).
Proof.
  intros MC E G NZ. pose proof (members_attrs s MC) as MA. pose proof MC as [Hs (a0 & I0 & T0)].
  inversion E as [s' d0 b0 _ F]; subst.
  assert (MO : members_ok l).
  { clear - F G MA I0 T0. assert (SUB : forall l' b', fields d l' b' -> In a0 l' -> exists b2, field d a0 b2).
    { intros l' b' H. induction l' as [|x l' IH] in b', H |- *; intros I; [contradiction|]. inversion H; subst. destruct I as [->|I]; [eauto|eapply IH; eauto]. }
    destruct (SUB _ _ F I0) as [b2 FA]. pose proof (proj1 (proj2 (proj2 (proj2 (MA a0 I0)))) T0) as NM.
    inversion FA; subst; rewrite ?NM in *; try congruence.
    match goal with H : field_bits _ _ _ |- _ => rewrite T0 in H; inversion H; subst end. congruence. }
  set (d2 := aset "nodes" (VNodes (wire_order l)) d).
  assert (E2 : encodes (VObj (CMsg s) d2) (nbits 8 (s_cls s) ++ nbits 8 (s_cmd s) ++ b0)).
  { constructor; [exact Hs|]. apply (fields_members "nodes" l); [discriminate|apply wire_order_bytes|apply wire_order_ok; exact MO|exact F|exact G|].
    intros a I N. apply (MA a I). exact N. }
  assert (SY : symmetric (VObj (CMsg s) d2)).
  { constructor.
    - intros a I. destruct (MA a I) as (P & C & _). auto.
    - intros a l' I T GA. pose proof (proj1 (proj2 (proj2 (proj2 (MA a I)))) T) as NM. rewrite NM in GA. unfold d2 in GA. rewrite aget_aset_same in GA.
      injection GA as <-. apply wire_order_canonical. exact NZ.
    - intros a m I T. destruct (MA a I) as (_ & _ & X & _). contradiction. }
  destruct (proj1 compose_all _ _ E) as (_ & bs & EC & B & EB).
  destruct (proj1 compose_all _ _ E2) as (_ & bs2 & EC2 & B2 & EB2).
  destruct (round_trip _ _ E2 SY) as (bs3 & m' & EC3 & D & SV).
  assert (bs3 = bs2) by congruence. subst bs3. assert (bs2 = bs) by (apply bits_of_inj; [assumption|assumption|congruence]). subst bs2.
  assert (SD : exists d', m' = VObj (CMsg s) d' /\ forall n t, declared n (s_attrs s) = Some t -> same_val (read_attr t n d2) (read_attr t n d')).
  { remember (VObj (CMsg s) d2) as m0 eqn:Em. destruct SV; try discriminate Em.
    - subst. exists d2. split; [reflexivity|]. intros; constructor.
    - subst m. destruct H as (c & dd & X & [->|[h ->]]); discriminate X.
    - injection Em as -> ->. exists d'. auto. }
  destruct SD as (d' & -> & RD). exists bs, d'. split; [exact EC|]. split; [exact D|].
  assert (DN : declared "nodes" (s_attrs s) = Some TNodes).
  { destruct (declared "nodes" (s_attrs s)) as [t|] eqn:DD.
    - destruct (declared_in _ _ _ DD) as (a & I & N & <-). f_equal. apply (MA a I). exact N.
    - exfalso. clear - DD I0 MA T0. pose proof (proj1 (proj2 (proj2 (proj2 (MA a0 I0)))) T0) as NM. revert DD I0. generalize (s_attrs s).
      induction l as [|x l IH]; intros DD I; [contradiction|]. cbn [declared] in DD. destruct I as [->|I].
      + rewrite NM in DD. discriminate.
      + destruct (String.eqb "nodes" (a_name x)); [discriminate|auto]. }
  pose proof (RD "nodes" TNodes DN) as RN. unfold read_attr in RN at 1. unfold d2 in RN at 1. rewrite aget_aset_same in RN.
  split; [|split].
  - intros NE. assert (WN : wire_order l <> []).
    { destruct l as [|p l']; [contradiction|]. intros X. assert (In p (wire_order (p :: l'))) by (apply wire_order_in; left; reflexivity). rewrite X in H. contradiction. }
    unfold read_attr in RN. destruct (aget "nodes" d') as [v|].
    + inversion RN; subst; try reflexivity; try (exfalso; congruence).
      match goal with H : no_command _ |- _ => destruct H as (c & dd & X & _); discriminate X end.
    + cbn [default_of] in RN. inversion RN; subst. exfalso; congruence.
  - intros n t NN DT. specialize (RD n t DT). unfold read_attr in *. unfold d2 in RD. rewrite aget_aset_other in RD by exact NN. exact RD.
  - intros ->. unfold read_attr in RN. cbn [wire_order filter app] in RN. rewrite getattr_spec. rewrite DN. exact RN.
Qed.

(** ** C15, C16 *)
Lemma word_sweep : forallb (fun a => forallb (fun b => let w := 256 * Z.of_nat a + Z.of_nat b in let s := pad5 (str_of_Z w) in
    forallb is_digit s && (length s =? 5)%nat && match digits_acc s 0 false with Some z => z =? w | None => false end)
  (seq 0 256)) (seq 0 256) = true.
Proof. vm_compute. reflexivity. Qed.
Lemma word_text w : 0 <= w < 65536 -> py_int (pad5 (str_of_Z w)) = Ok w /\ Forall (fun c => c <> 45) (pad5 (str_of_Z w)) /\ length (pad5 (str_of_Z w)) = 5%nat.
Proof.
  intros R. pose proof word_sweep as W. rewrite forallb_forall in W. specialize (W (Z.to_nat (w / 256)) ltac:(apply in_seq; lia)).
  rewrite forallb_forall in W. specialize (W (Z.to_nat (w mod 256)) ltac:(apply in_seq; lia)). cbv zeta in W.
  replace (256 * Z.of_nat (Z.to_nat (w / 256)) + Z.of_nat (Z.to_nat (w mod 256))) with w in W by lia.
  apply andb_prop in W as [W W3]. apply andb_prop in W as [W1 W2]. assert (F : Forall (fun c => is_digit c = true) (pad5 (str_of_Z w))) by (apply Forall_forall; rewrite forallb_forall in W1; exact W1).
  split; [|split; [|lia]].
  - apply py_int_digits; [exact F|]. destruct (digits_acc (pad5 (str_of_Z w)) 0 false); [|discriminate]. f_equal. lia.
  - eapply Forall_impl; [|exact F]. cbn. intros c C. unfold is_digit in C. lia.
Qed.
Lemma words_ok : forall bs, bytes_ok bs -> Nat.even (length bs) = true ->
  exists ws, dsk_words bs = Ok ws /\ (2 * length ws)%nat = length bs /\ Forall (fun w => 0 <= w < 65536) ws /\ flat_map dsk_of_word ws = bs.
Proof.
  fix IH 1. intros [|a [|b bs]] B E; [exists []; repeat split; constructor|discriminate|].
  inversion B as [|? ? Ha B']; subst. inversion B' as [|? ? Hb B'']; subst. destruct (IH bs B'' E) as (ws & E1 & E2 & E3 & E4). clear IH.
  exists (Z.lor (Z.shiftl a 8) b :: ws). cbn [dsk_words]. rewrite E1. split; [reflexivity|]. split; [cbn [length]; lia|].
  assert (V : Z.lor (Z.shiftl a 8) b = 256 * a + b).
  { pose proof (id_ok a b Ha Hb) as X. change (Z.land b 255) with (Z.land b (Z.ones 8)) in X. rewrite Z.land_ones in X by lia.
    change (2 ^ 8) with 256 in X. rewrite Z.mod_small in X by lia. exact X. }
  split.
  - constructor; [rewrite V; lia|exact E3].
  - cbn [flat_map]. rewrite E4, V. unfold dsk_of_word. cbn [app]. rewrite Z.shiftr_div_pow2 by lia. change 255 with (Z.ones 8). rewrite !Z.land_ones by lia.
    change (2 ^ 8) with 256. f_equal; [lia|f_equal; lia].
Qed.
Lemma words_text_ok ws : length ws = 8%nat -> Forall (fun w => 0 <= w < 65536) ws ->
  dsk_setstate (VStr (join [45] (map (fun w => pad5 (str_of_Z w)) ws))) = Ok (VDsk (flat_map dsk_of_word ws)).
Proof.
  intros L F. cbn [dsk_setstate]. rewrite split_join.
  - unfold zlen. rewrite map_length, L. cbn [Z.of_nat Z.eqb negb]. change (8 =? 8) with true.
    enough (map_res py_int (map (fun w => pad5 (str_of_Z w)) ws) = Ok ws) as -> by reflexivity.
    clear L. induction F as [|w ws H F IH]; cbn [map map_res]; [reflexivity|]. rewrite (proj1 (word_text w H)). cbn [bind]. rewrite IH. reflexivity.
  - destruct ws; [discriminate L|discriminate].
  - apply Forall_forall. intros x I. apply in_map_iff in I as (w & <- & I). rewrite Forall_forall in F. apply word_text. auto.
Qed.
Lemma dsk_round_trip bs : bytes_ok bs -> length bs = 16%nat -> exists t, dsk_text bs = Ok t /\ dsk_setstate (VStr t) = Ok (VDsk bs).
Proof.
  intros B L. destruct (words_ok bs B) as (ws & E1 & E2 & E3 & E4); [rewrite L; reflexivity|].
  unfold dsk_text. rewrite E1. cbn [bind]. eexists. split; [reflexivity|]. rewrite words_text_ok; [rewrite E4; reflexivity|lia|exact E3].
Qed.
(** the shape of the text *)
Lemma dsk_text_shape bs : bytes_ok bs -> length bs = 16%nat -> exists gs, dsk_text bs = Ok (join [45] gs) /\ length gs = 8%nat /\
  Forall2 (fun g k => length g = 5%nat /\ Forall (fun c => 48 <= c <= 57) g /\ py_int g = Ok (256 * nth (2 * k) bs 0 + nth (2 * k + 1) bs 0)) gs (seq 0 8).
Proof.
  intros B L. do 16 (destruct bs as [|? bs]; [discriminate L|]). destruct bs; [|discriminate L].
  assert (V : forall a b, 0 <= a < 256 -> 0 <= b < 256 -> Z.lor (Z.shiftl a 8) b = 256 * a + b).
  { intros a b Ha Hb. pose proof (id_ok a b Ha Hb) as X. change (Z.land b 255) with (Z.land b (Z.ones 8)) in X. rewrite Z.land_ones in X by lia.
    change (2 ^ 8) with 256 in X. rewrite Z.mod_small in X by lia. exact X. }
  unfold bytes_ok in B. rewrite !Forall_cons_iff in B.
  unfold dsk_text. cbn [dsk_words bind]. eexists. split; [reflexivity|]. split; [reflexivity|].
  assert (G : forall a b, 0 <= a < 256 -> 0 <= b < 256 -> length (pad5 (str_of_Z (Z.lor (Z.shiftl a 8) b))) = 5%nat /\ Forall (fun c => 48 <= c <= 57) (pad5 (str_of_Z (Z.lor (Z.shiftl a 8) b))) /\ py_int (pad5 (str_of_Z (Z.lor (Z.shiftl a 8) b))) = Ok (256 * a + b)).
  { intros a b Ha Hb. rewrite V by assumption. destruct (word_text (256 * a + b) ltac:(lia)) as (P & _ & Q). split; [exact Q|]. split; [|exact P].
    unfold pad5. apply Forall_app. split; [apply Forall_forall; intros c I; apply repeat_spec in I; lia|].
    eapply Forall_impl; [|apply str_digits; lia]. cbn. intros c C. unfold is_digit in C. lia. }
  cbn [map seq]. repeat (constructor; [cbn [nth Nat.mul Nat.add]; apply G; tauto|]). constructor.
Qed.

(** ** C17 *)
Lemma float_reads q hdr m tl : 0 <= hdr < 256 -> zlen m = hdr mod 8 ->
  float_deserialize (at_ q (hdr :: m ++ tl)) = Ok (VTuple [VFloat (from_bytes_s m) (hdr / 32); VInt (hdr mod 8); VInt (hdr / 8 mod 4)], at_ ((q ++ [hdr]) ++ m) tl).
Proof.
  intros H L. unfold float_deserialize. rewrite <- mid_0, mid_bits by lia. cbn [bind]. rewrite mid_bits by lia. cbn [bind]. rewrite mid_bits by lia. cbn [bind].
  change (0 + 3 + 2 + 3) with 8. rewrite mid_8.
  change (2 ^ (8 - 0 - 3)) with 32. change (2 ^ (8 - (0 + 3) - 2)) with 8. change (2 ^ (8 - (0 + 3 + 2) - 3)) with 1. change (2 ^ 3) with 8. change (2 ^ 2) with 4.
  rewrite Z.div_1_r. rewrite (at_value (q ++ [hdr]) m tl) by exact L. cbn [bind]. replace ((hdr / 32) mod 8) with (hdr / 32) by lia. reflexivity.
Qed.
Lemma float_eof q hdr m : 0 <= hdr < 256 -> zlen m < hdr mod 8 -> float_deserialize (at_ q (hdr :: m)) = Err EEOF.
Proof.
  intros H L. unfold float_deserialize. rewrite <- mid_0, mid_bits by lia. cbn [bind]. rewrite mid_bits by lia. cbn [bind]. rewrite mid_bits by lia. cbn [bind].
  change (0 + 3 + 2 + 3) with 8. rewrite mid_8. change (2 ^ (8 - (0 + 3 + 2) - 3)) with 1. change (2 ^ 3) with 8. rewrite Z.div_1_r.
  rewrite at_value_eof by exact L. reflexivity.
Qed.
Lemma sensor_value ty hdr m tl : bytes_ok (ty :: hdr :: m ++ tl) ->
  (zlen m = hdr mod 8 -> exists d, decode (49 :: 5 :: ty :: hdr :: m ++ tl) = Ok (VObj (CMsg m_SensorMultilevel_Report) d) /\
     aget "sensorType" d = Some (VI false 1 ty) /\ aget "sensorValue" d = Some (VFloatT (snum (bits_of m)) (hdr / 32) (hdr mod 8) (hdr / 8 mod 4))) /\
  (tl = [] -> zlen m < hdr mod 8 -> decode (49 :: 5 :: ty :: hdr :: m) = Err EEOF).
Proof.
  intros B. inversion B as [|? ? HT B']; subst. inversion B' as [|? ? HH B'']; subst. apply bytes_ok_app in B'' as [BM BT].
  assert (Hs : In m_SensorMultilevel_Report registry) by in_reg.
  set (pre := firstn 1 (s_attrs m_SensorMultilevel_Report)). set (a := mkA "sensorValue" TFloat None None).
  assert (BP : bytes_ok [ty]) by (constructor; [exact HT|constructor]). split.
  - intros L.
    destruct (frame_last _ pre a [ty] Hs eq_refl eq_refl eq_refl BP eq_refl (hdr :: m ++ tl)
      (fun v => v = VFloatT (snum (bits_of m)) (hdr / 32) (hdr mod 8) (hdr / 8 mod 4))) as (d & v & E & HR & GV & ->).
    { exact B'. } { discriminate. }
    { intros d q f _. unfold field_parse. cbn [a a_parse a_ty ds2 ds0]. rewrite float_reads by assumption. eexists _, _, _.
      split; [reflexivity|]. split; [reflexivity|]. rewrite from_bytes_s_snum by exact BM. reflexivity. }
    exists d. split; [exact E|]. split; [|exact GV].
    destruct HR as (cs & CU & HR). cbn [pre firstn s_attrs m_SensorMultilevel_Report] in CU. destruct (HR "sensorType" (nbits 8 ty)) as (v & t & G & DT & R).
    { cbn in CU. injection CU as <-. reflexivity. }
    injection DT as <-. inversion R; subst. rewrite G. do 2 f_equal. apply num_nbits_small. cbn. lia.
  - intros -> L. rewrite app_nil_r in *. apply (frame_last_err _ pre a [ty] Hs eq_refl eq_refl BP eq_refl (hdr :: m)); [exact B'|discriminate|].
    intros d q f _. unfold field_parse. cbn [a a_parse a_ty ds2 ds0]. apply float_eof; assumption.
Qed.
