(** compose produces the specified wire form. *)
From Coq Require Import String ZArith List Bool Lia ZifyBool ZifyNat.
From Verif Require Import Py BitStream Schema Registry Codec SpecBits BitLemmas ReaderLemmas WriterLemmas SpecWire.
Import ListNotations.
Open Scope list_scope.
Open Scope Z_scope.
Local Ltac Zify.zify_post_hook ::= Z.div_mod_to_equations.

(** ** Alignment of the declared classes (checked by computation on the registry) *)
Definition sub_width (t : aty) : option Z :=
  match t with TUb n | TBits n | TRes n => Some n | TFlag => Some 1 | _ => None end.
Fixpoint al (l : list attr) (o : Z) : bool :=
  match l with
  | [] => o =? 0
  | a :: l' =>
      match sub_width (a_ty a) with
      | Some n => (1 <=? n) && (o + n <=? 8) && al l' ((o + n) mod 8)
      | None => (o =? 0) && al l' 0
      end
  end.
Lemma registry_aligned s : In s registry -> al (s_attrs s) 0 = true.
Proof.
  assert (H : forallb (fun s => al (s_attrs s) 0) registry = true) by (vm_compute; reflexivity).
  rewrite forallb_forall in H. apply H.
Qed.
Lemma registry_cls_bytes s : In s registry -> 0 <= s_cls s < 256 /\ 0 <= s_cmd s < 256.
Proof.
  assert (H : forallb (fun s => is_byte (s_cls s) && is_byte (s_cmd s)) registry = true) by (vm_compute; reflexivity).
  rewrite forallb_forall in H. intros Hs. specialize (H s Hs). apply andb_prop in H as [H1 H2].
  rewrite is_byte_spec in H1, H2. auto.
Qed.

Lemma dget_sers n d v : aget n d = Some v -> dget String.eqb n (sers_of d) = Some (serialize v).
Proof.
  unfold aget, sers_of. induction d as [|[k x] d IH]; cbn; [discriminate|].
  destruct (String.eqb n k); [congruence|auto].
Qed.

Lemma plain_ids_model l : nodes_plain l = plain_ids l.
Proof.
  unfold nodes_plain, plain_ids. induction l as [|[n [e|]] l IH]; cbn in *; congruence.
Qed.
Lemma endpoint_ids_model l : nodes_multi l = endpoint_ids l.
Proof.
  unfold nodes_multi. induction l as [|[n [e|]] l IH]; cbn in *; congruence.
Qed.
Lemma has_multi_model l : has_multi l = match endpoint_ids l with [] => false | _ => true end.
Proof.
  unfold has_multi. induction l as [|[n [e|]] l IH]; cbn in *; try reflexivity. exact IH.
Qed.
Lemma member_bytes_ok l : members_ok l -> bytes_ok (plain_ids l) /\ bytes_ok (endpoint_ids l).
Proof.
  unfold members_ok, bytes_ok, plain_ids. induction 1 as [|[n [e|]] l [H1 H2] Hl [IH1 IH2]]; cbn in *.
  - split; constructor.
  - split; [assumption|]. constructor; [lia|]. constructor; [lia|assumption].
  - split; [|assumption]. constructor; [lia|assumption].
Qed.

Lemma nodes_serialize_ok l w b : winv w b -> w_start w = 0 -> members_ok l ->
  exists w', nodes_serialize l w = Ok w' /\ winv w' (b ++ bits_of (member_bytes l)) /\ w_start w' = 0.
Proof.
  intros W S H. destruct (member_bytes_ok l H) as [B1 B2].
  unfold nodes_serialize, member_bytes, wappend.
  rewrite plain_ids_model, endpoint_ids_model, has_multi_model.
  destruct (wextend_ok (plain_ids l) w b W S B1) as (w1 & E1 & W1 & S1). rewrite E1. cbn [bind].
  destruct (endpoint_ids l) as [|x y] eqn:E.
  - exists w1. rewrite app_nil_r. auto.
  - destruct (wextend_ok [0] w1 _ W1 S1) as (w2 & E2 & W2 & S2). { constructor; [lia|constructor]. }
    rewrite E2. cbn [bind].
    destruct (wextend_ok (x :: y) w2 _ W2 S2 B2) as (w3 & E3 & W3 & S3). rewrite E3.
    exists w3. split; [reflexivity|]. split; [|exact S3].
    rewrite !bits_of_app. replace (bits_of (0 :: x :: y)) with (bits_of [0] ++ bits_of (x :: y)) by (rewrite <- bits_of_app; reflexivity).
    rewrite <- ?app_assoc in W3. rewrite <- ?app_assoc. exact W3.
Qed.

(** what one attribute does to the writer *)
Definition wpost (t : aty) (o : Z) (w' : writer) (b : list bool) : Prop :=
  winv w' b /\ w_start w' = match sub_width t with Some n => (o + n) mod 8 | None => 0 end.

Lemma nbits_zero n : nbits n 0 = repeat false n.
Proof. induction n; cbn [nbits repeat]; [reflexivity|]. rewrite IHn, Z.testbit_0_l. reflexivity. Qed.

Lemma serialize_default_ok t b w wb : default_bits t b -> winv w wb ->
  match sub_width t with Some n => 1 <= n /\ w_start w + n <= 8 | None => w_start w = 0 end ->
  exists w', serialize_default t w = Ok w' /\ wpost t (w_start w) w' (wb ++ b).
Proof.
  intros D W A. destruct D; cbn [serialize_default sub_width] in *.
  - destruct (addBits_ok 0 n w wb W) as (w' & E & W' & S'); try lia.
    exists w'. split; [exact E|]. split; [rewrite <- nbits_zero; exact W'|exact S'].
  - destruct (wextend_ok [] w wb W A) as (w' & E & W' & S'); [constructor|]. exists w'. split; [exact E|]. split; assumption.
  - exists w. unfold nodes_serialize. cbn. unfold wextend. cbn. rewrite app_nil_r. split; [destruct w; rewrite ?app_nil_r; reflexivity|].
    split; [rewrite app_nil_r; exact W|exact A].
  - exists w. rewrite app_nil_r. split; [reflexivity|]. split; assumption.
Qed.

Lemma field_serialize_ok t v b w wb : field_bits t v b -> winv w wb ->
  match sub_width t with Some n => 1 <= n /\ w_start w + n <= 8 | None => w_start w = 0 end ->
  has_serialize v = true /\ exists w', serialize v w = Ok w' /\ wpost t (w_start w) w' (wb ++ b).
Proof.
  intros F W A. destruct F; cbn [has_serialize sub_width serialize serialize_simple] in *; (split; [reflexivity|]).
  - destruct (addBytes_ok sg sz z w wb W A H) as (w' & E & W' & S'). exists w'. split; [exact E|split; assumption].
  - destruct (addBits_ok z n w wb W) as (w' & E & W' & S'); try lia. exists w'. split; [exact E|split; assumption].
  - destruct (addBits_ok z n w wb W) as (w' & E & W' & S'); try lia. exists w'. split; [exact E|split; assumption].
  - destruct (addBits_ok z n w wb W) as (w' & E & W' & S'); try lia. exists w'. split; [exact E|split; assumption].
  - destruct (addBits_ok (if f then 1 else 0) 1 w wb W) as (w' & E & W' & S'); try lia. { destruct f; lia. }
    exists w'. split; [exact E|split; [|assumption]]. destruct f; exact W'.
  - destruct (wextend_ok bs w wb W A H) as (w' & E & W' & S'). exists w'. split; [exact E|split; assumption].
  - destruct (wextend_ok bs w wb W A H) as (w' & E & W' & S'). exists w'. split; [exact E|split; assumption].
  - destruct (wextend_ok (be_bytes 16 z) w wb W A (be_bytes_ok _ _)) as (w' & E & W' & S').
    exists w'. split; [exact E|split; [|assumption]]. rewrite be_bytes_bits in W'. exact W'.
  - destruct (nodes_serialize_ok l w wb W A H) as (w' & E & W' & S'). exists w'. split; [exact E|split; assumption].
Qed.

Lemma compose_all :
  (forall m b, encodes m b ->
     (exists s d, m = VObj (CMsg s) d) /\ exists bs, compose m = Ok bs /\ bytes_ok bs /\ bits_of bs = b) /\
  (forall d l b, fields d l b -> forall o w wb, al l o = true -> winv w wb -> w_start w = o ->
     exists w', compose_attrs d (sers_of d) l w = Ok w' /\ winv w' (wb ++ b) /\ w_start w' = 0) /\
  (forall d a b, field d a b -> forall w wb, winv w wb ->
     match sub_width (a_ty a) with Some n => 1 <= n /\ w_start w + n <= 8 | None => w_start w = 0 end ->
     exists w', compose_attr d (sers_of d) a w = Ok w' /\ wpost (a_ty a) (w_start w) w' (wb ++ b)).
Proof.
  apply encodes_mutind.
  - (* message *) intros s d b Hs _ IH. split; [eauto|].
    destruct (registry_cls_bytes s Hs) as [C1 C2].
    unfold compose, compose_with.
    destruct (addBytes_ok false 1 (s_cls s) new_writer [] winv_new eq_refl) as (w1 & E1 & W1 & S1). { exact C1. }
    change (Z.of_nat 1) with 1 in E1. rewrite E1. cbn [bind].
    destruct (addBytes_ok false 1 (s_cmd s) w1 _ W1 S1) as (w2 & E2 & W2 & S2). { exact C2. }
    change (Z.of_nat 1) with 1 in E2. rewrite E2. cbn [bind].
    destruct (IH 0 w2 _ (registry_aligned s Hs) W2 S2) as (w3 & E3 & W3 & S3). rewrite E3. cbn [bind].
    exists (w_buf w3). split; [reflexivity|]. split; [apply W3|].
    rewrite (winv_aligned _ _ W3 S3). cbn [app]. rewrite <- app_assoc. reflexivity.
  - intros d o w wb A W S. cbn in A. exists w. rewrite app_nil_r. split; [reflexivity|]. split; [exact W|lia].
  - intros d a l b bs _ IHa _ IHl o w wb A W S. cbn [al] in A.
    destruct (IHa w wb W) as (w1 & E1 & W1 & S1).
    { destruct (sub_width (a_ty a)); lia. }
    cbn [compose_attrs]. rewrite E1. cbn [bind].
    destruct (IHl (w_start w1) w1 (wb ++ b)) as (w2 & E2 & W2 & S2); [|exact W1|reflexivity|].
    { rewrite S1. destruct (sub_width (a_ty a)) as [n|].
      - apply andb_prop in A as [_ A]. rewrite S. exact A.
      - apply andb_prop in A as [_ A]. exact A. }
    exists w2. rewrite app_assoc. auto.
  - (* unset *) intros d a b G D w wb W A. unfold compose_attr. rewrite G. apply serialize_default_ok; assumption.
  - (* set *) intros d a v b G C F w wb W A. unfold compose_attr. rewrite G, C.
    destruct (field_serialize_ok _ _ _ w wb F W A) as (HS & w' & E & P). rewrite HS, (dget_sers _ _ _ G).
    exists w'. split; assumption.
  - (* hdr *) intros d a l G C T w wb W A. unfold compose_attr. rewrite G, C. cbn [has_serialize].
    rewrite (dget_sers _ _ _ G). cbn [serialize serialize_simple]. rewrite T in *. cbn [sub_width] in A.
    exists w. rewrite app_nil_r. split; [reflexivity|]. split; assumption.
  - (* nested *) intros d a m b G C T _ [(s & dm & ->) (bs & E & B & Eb)] w wb W A. unfold compose_attr. rewrite G, C. cbn [has_serialize].
    rewrite (dget_sers _ _ _ G). rewrite T in *. cbn [sub_width] in A.
    change (serialize (VObj (CMsg s) dm) w) with (bind (compose (VObj (CMsg s) dm)) (fun bs => wextend bs w)).
    rewrite E. cbn [bind]. destruct (wextend_ok bs w wb W A B) as (w' & E' & W' & S'). exists w'. rewrite Eb in W'.
    split; [exact E'|]. split; assumption.
  - (* no command *) intros d a c m G C T Hc w wb W A. unfold compose_attr. rewrite G, C. cbn [has_serialize].
    rewrite (dget_sers _ _ _ G). rewrite T in *. cbn [sub_width] in A.
    destruct (wextend_ok [] w wb W A) as (w' & E' & W' & S'); [constructor|].
    exists w'. split; [|split; assumption].
    destruct Hc as [->|[h ->]]; cbn [serialize]; exact E'.
  - (* configuration value *) intros d a z n C T G N GS Hn F w wb W A. unfold compose_attr. rewrite G, C. unfold run_chook.
    rewrite N in G. rewrite G, GS. cbn [is_int andb to_int bind]. rewrite T in *. cbn [sub_width] in A.
    destruct (addBytes_ok false (Z.to_nat n) z w wb W A F) as (w' & E & W' & S').
    rewrite Z2Nat.id in E by exact Hn. exists w'. split; [exact E|]. split; assumption.
Qed.
