(** The registered classes have the layouts of SpecLayout.v. *)
From Coq Require Import String ZArith List Bool Lia ZifyBool ZifyNat.
From Verif Require Import Py BitStream Schema Registry Codec SpecBits BitLemmas SpecWire SpecDecode SpecLayout.
From Verif Require CodecProofs DecodeProofs.
Import ListNotations.
Open Scope list_scope.
Open Scope string_scope.
Open Scope list_scope.
Open Scope Z_scope.

(** * A decidable comparison of a layout with a class declaration *)
Definition fname (f : fld) : option string :=
  match f with U x _ | F x | K x | A x | R x | M x | C x => Some x | X _ | H _ => None end.
Definition names (fs : list fld) : list string := flat_map (fun f => match fname f with Some x => [x] | None => [] end) fs.
Definition ty_ok (f : fld) (t : aty) : bool :=
  match f, t with
  | U _ n, TInt false k => (0 <? n)%nat && (n =? 8 * k)%nat
  | U _ n, (TUb m | TBits m) => (0 <? n)%nat && (Z.of_nat n =? m)
  | X n, TRes m => (0 <? n)%nat && (Z.of_nat n =? m)
  | F _, TFlag | K _, TDsk | A _, TIPv6 | R _, TBytes | M _, TNodes | C _, TMsg | H _, THdr => true
  | _, _ => false
  end.
Definition no_hook {T} (o : option T) : bool := match o with None => true | Some _ => false end.
Definition fld_ok (ns : list string) (f : fld) (a : attr) : bool :=
  ty_ok f (a_ty a) && no_hook (a_compose a) &&
  match fname f with Some x => String.eqb x (a_name a) | None => negb (existsb (String.eqb (a_name a)) ns) end.
Fixpoint all2 {S T} (p : S -> T -> bool) (l : list S) (m : list T) : bool :=
  match l, m with [], [] => true | x :: l', y :: m' => p x y && all2 p l' m' | _, _ => false end.
Fixpoint distinct (l : list string) : bool :=
  match l with [] => true | x :: l' => negb (existsb (String.eqb x) l') && distinct l' end.
Definition row_ok (l : layout) (s : schema) : bool :=
  String.eqb (l_name l) (s_name s) && (l_cls l =? s_cls s) && (l_cmd l =? s_cmd s) &&
  all2 (fld_ok (names (l_flds l))) (l_flds l) (s_attrs s) && distinct (names (l_flds l)) && (negb (plain l) || flat_class s).
Lemma layouts_ok : forallb (fun l => existsb (row_ok l) registry) layouts = true.
Proof. vm_compute. reflexivity. Qed.

Lemma all2_Forall2 {S T} (p : S -> T -> bool) l m : all2 p l m = true -> Forall2 (fun x y => p x y = true) l m.
Proof.
  revert m. induction l as [|x l IH]; destruct m as [|y m]; cbn; try discriminate; intros E; constructor; apply andb_prop in E; destruct E as [E1 E2]; auto.
Qed.
Lemma not_in_str x l : existsb (String.eqb x) l = false <-> ~ In x l.
Proof.
  induction l as [|y l IH]; cbn; [intuition|]. rewrite orb_false_iff, IH. destruct (String.eqb_spec x y); intuition congruence.
Qed.
Lemma distinct_NoDup l : distinct l = true -> NoDup l.
Proof.
  induction l as [|x l IH]; cbn; intros E; constructor; apply andb_prop in E; destruct E as [E1 E2]; auto. apply not_in_str. destruct (existsb _ l); auto; discriminate.
Qed.

Lemma lays_names P fs vs b : lays P fs vs b -> map fst vs = names fs.
Proof. unfold names. induction 1; cbn; rewrite ?IHlays; reflexivity. Qed.
Lemma in_names P fs vs b x v : lays P fs vs b -> In (x, v) vs -> In x (names fs).
Proof. intros L J. rewrite <- (lays_names _ _ _ _ L). apply (in_map fst) in J. exact J. Qed.

(** * Sending *)
Lemma attr_names ns fs l : Forall2 (fun f a => fld_ok ns f a = true) fs l -> (forall x, In x (names fs) -> In x ns) -> NoDup (names fs) ->
  forall x a a', In x (names fs) -> In a l -> In a' l -> a_name a = x -> a_name a' = x -> a = a'.
Proof.
  induction 1 as [|f a0 fs l K F IH]; intros S N x a a' J Ja Ja' E E'; [destruct Ja|].
  unfold fld_ok in K. rewrite !andb_true_iff in K. destruct K as [_ K].
  assert (D : forall a1, In a1 l -> a_name a1 = x -> In x (names fs)).
  { clear - F S J. intros a1 J1 E1. assert (J' : In x ns) by (apply S; exact J). clear S J. induction F as [|f' a2 fs l K F IH]; [destruct J1|].
    unfold fld_ok in K. rewrite !andb_true_iff in K. destruct K as [_ K]. cbn. apply in_or_app. destruct J1 as [->|J1]; [left|right; auto].
    destruct (fname f') as [y|]; [apply String.eqb_eq in K; left; congruence|]. exfalso. rewrite E1 in K. apply negb_true_iff, not_in_str in K. contradiction. }
  cbn in *. destruct (fname f) as [y|] eqn:Y; cbn in *.
  - apply String.eqb_eq in K. inversion N as [|? ? N1 N2]; subst. 
    assert (HD : forall b, In b l -> a_name b = a_name a0 -> False).
    { intros b Jb Eb. apply N1. destruct J as [J|J].
      - rewrite J. apply (D b Jb). congruence.
      - destruct (in_dec string_dec (a_name a0) (names fs)) as [I|I]; [exact I|]. exfalso. clear - F Jb Eb I S. 
        assert (I' : In (a_name a0) ns) by (apply S; left; reflexivity). clear S. induction F as [|f' a2 fs l K F IH]; [destruct Jb|].
        unfold fld_ok in K. rewrite !andb_true_iff in K. destruct K as [_ K]. cbn in I. rewrite in_app_iff in I. destruct Jb as [->|Jb]; [|apply IH; tauto].
        destruct (fname f') as [y|]; [apply String.eqb_eq in K; apply I; left; left; congruence|]. rewrite Eb in K. apply negb_true_iff, not_in_str in K. contradiction. }
    destruct Ja as [<-|Ja], Ja' as [<-|Ja']; [reflexivity|exfalso; eapply HD; [exact Ja'|congruence]|exfalso; eapply HD; [exact Ja|congruence]|].
    destruct J as [J|J]; [exfalso; eapply HD; [exact Ja|congruence]|]. eapply IH; eauto.
  - apply negb_true_iff, not_in_str in K. destruct Ja as [<-|Ja]; [exfalso; apply K, S; congruence|]. destruct Ja' as [<-|Ja']; [exfalso; apply K, S; congruence|]. eapply IH; eauto.
Qed.

Lemma zeros_repeat c : zeros c -> c = repeat false (length c).
Proof. induction 1; cbn; congruence. Qed.
Lemma args_of s kw ns fs vs b : lays zeros fs vs b -> forall l, Forall2 (fun f a => fld_ok ns f a = true) fs l ->
  (forall x v, In (x, v) vs -> exists w, aget x kw = Some w /\ gives v w) -> (forall x w, aget x kw = Some w -> In x ns) ->
  (forall a, In a l -> In (a_name a) (names fs) -> forall a', In a' (s_attrs s) -> a_name a' = a_name a -> a_ty a' = a_ty a) ->
  args s kw l b.
Proof.
  assert (UN : forall a, ~ In (a_name a) ns -> (forall x w, aget x kw = Some w -> In x ns) -> aget (a_name a) kw = None).
  { intros a N S. destruct (aget (a_name a) kw) eqn:E; [|reflexivity]. apply S in E. contradiction. }
  induction 1 as [|x n z fs vs b Z0 L IH|x f fs vs b L IH|n c fs vs b Lc Zc L IH|x bs fs vs b B LB L IH|x z fs vs b Z0 L IH|x bs B|x l0 ML|x m b EM|x fs vs b L IH];
    intros l F2 G S T; inversion F2 as [|f0 a0 fs0 l0' K F3 E1 E2]; subst; clear F2; try (unfold fld_ok in K; rewrite !andb_true_iff in K).
  - constructor.
  - destruct K as [[K1 K2] K3]. cbn in K3. apply String.eqb_eq in K3. destruct (G x (Num z) (or_introl eq_refl)) as (w & W & GW). inversion GW; subst.
    destruct a0 as [nm t p q]; cbn in *. subst. eapply AR_set; cbn; [exact W| |..]; [destruct q; [discriminate|reflexivity]| |intros a' J E; exact (T _ (or_introl eq_refl) (or_introl eq_refl) a' J E)|].
    + destruct t; cbn in K1; try discriminate; [destruct signed; [discriminate|]| |].
      * replace (nbits n z) with (nbits (8 * size) z) by (f_equal; lia). constructor. unfold fits. cbn. split; [lia|]. replace (8 * Z.of_nat size) with (Z.of_nat n) by lia. lia.
      * replace (nbits n z) with (nbits (Z.to_nat n0) z) by (f_equal; lia). constructor. replace n0 with (Z.of_nat n) by lia. lia.
      * replace (nbits n z) with (nbits (Z.to_nat n0) z) by (f_equal; lia). constructor. replace n0 with (Z.of_nat n) by lia. lia.
    + apply IH; [assumption|intros; apply G; right; assumption|assumption|intros a J1 J2; apply T; right; assumption].
  - destruct K as [[K1 K2] K3]. cbn in K3. apply String.eqb_eq in K3. destruct (G x (Bit f) (or_introl eq_refl)) as (w & W & GW). inversion GW; subst.
    destruct a0 as [nm t p q]; cbn in *. subst. change (f :: b) with ([f] ++ b). eapply AR_set; cbn; [exact W| |..]; [destruct q; [discriminate|reflexivity]| |intros a' J E; exact (T _ (or_introl eq_refl) (or_introl eq_refl) a' J E)|].
    + destruct t; cbn in K1; try discriminate. constructor.
    + apply IH; [assumption|intros; apply G; right; assumption|assumption|intros a J1 J2; apply T; right; assumption].
  - destruct K as [[K1 K2] K3]. cbn in K3. apply negb_true_iff, not_in_str in K3. eapply AR_unset; [apply UN; assumption| |].
    + destruct (a_ty a0); cbn in K1; try discriminate. rewrite (zeros_repeat c Zc). replace (length c) with (Z.to_nat n) by lia. constructor.
    + apply IH; [assumption|assumption|assumption|intros a J1 J2; apply T; [right|]; assumption].
  - destruct K as [[K1 K2] K3]. cbn in K3. apply String.eqb_eq in K3. destruct (G x (Raw bs) (or_introl eq_refl)) as (w & W & GW). inversion GW; subst.
    destruct a0 as [nm t p q]; cbn in *. subst. eapply AR_set; cbn; [exact W| |..]; [destruct q; [discriminate|reflexivity]| |intros a' J E; exact (T _ (or_introl eq_refl) (or_introl eq_refl) a' J E)|].
    + destruct t; cbn in K1; try discriminate. constructor; assumption.
    + apply IH; [assumption|intros; apply G; right; assumption|assumption|intros a J1 J2; apply T; right; assumption].
  - destruct K as [[K1 K2] K3]. cbn in K3. apply String.eqb_eq in K3. destruct (G x (Addr z) (or_introl eq_refl)) as (w & W & GW). inversion GW; subst.
    destruct a0 as [nm t p q]; cbn [a_name a_ty a_parse a_compose ty_ok no_hook names fname flat_map app] in *. subst. eapply AR_set; cbn [a_name a_ty a_parse a_compose]; [exact W| |..]; [destruct q; [discriminate|reflexivity]| |intros a' J E; exact (T _ (or_introl eq_refl) (or_introl eq_refl) a' J E)|].
    + destruct t; cbn in K1; try discriminate. constructor; assumption.
    + apply IH; [assumption|intros; apply G; right; assumption|assumption|intros a J1 J2; apply T; right; assumption].
  - inversion F3; subst. destruct K as [[K1 K2] K3]. cbn in K3. apply String.eqb_eq in K3. destruct (G x (Raw bs) (or_introl eq_refl)) as (w & W & GW). inversion GW; subst.
    destruct a0 as [nm t p q]; cbn in *. subst. rewrite <- (app_nil_r (bits_of bs)). eapply AR_set; cbn; [exact W| |..]; [destruct q; [discriminate|reflexivity]| |intros a' J E; exact (T _ (or_introl eq_refl) (or_introl eq_refl) a' J E)|constructor].
    destruct t; cbn in K1; try discriminate. constructor; assumption.
  - inversion F3; subst. destruct K as [[K1 K2] K3]. cbn in K3. apply String.eqb_eq in K3. destruct (G x (Members l0) (or_introl eq_refl)) as (w & W & GW). inversion GW; subst.
    destruct a0 as [nm t p q]; cbn in *. subst. rewrite <- (app_nil_r (bits_of _)). eapply AR_set; cbn; [exact W| |..]; [destruct q; [discriminate|reflexivity]| |intros a' J E; exact (T _ (or_introl eq_refl) (or_introl eq_refl) a' J E)|constructor].
    destruct t; cbn in K1; try discriminate. constructor; assumption.
  - inversion F3; subst. destruct K as [[K1 K2] K3]. cbn in K3. apply String.eqb_eq in K3. destruct (G x (Cmd m) (or_introl eq_refl)) as (w & W & GW). inversion GW; subst.
    destruct a0 as [nm t p q]; cbn in *. subst. rewrite <- (app_nil_r b). eapply AR_set; cbn; [exact W| |..]; [destruct q; [discriminate|reflexivity]| |intros a' J E; exact (T _ (or_introl eq_refl) (or_introl eq_refl) a' J E)|constructor].
    destruct t; cbn in K1; try discriminate. constructor; assumption.
  - destruct K as [[K1 K2] K3]. cbn in K3. apply negb_true_iff, not_in_str in K3. change b with ([] ++ b). eapply AR_unset; [apply UN; assumption| |].
    + destruct (a_ty a0); cbn in K1; try discriminate. constructor.
    + apply IH; [assumption|assumption|assumption|intros a J1 J2; apply T; [right|]; assumption].
Qed.

Lemma layout_class l : In l layouts -> exists s, In s registry /\ s_name s = l_name l /\ s_cls s = l_cls l /\ s_cmd s = l_cmd l /\
  Forall2 (fun f a => fld_ok (names (l_flds l)) f a = true) (l_flds l) (s_attrs s) /\ NoDup (names (l_flds l)) /\ (plain l = true -> flat_class s = true).
Proof.
  intros J. pose proof layouts_ok as E. rewrite forallb_forall in E. apply E in J. apply existsb_exists in J. destruct J as (s & Js & R).
  unfold row_ok in R. rewrite !andb_true_iff in R. destruct R as [[[[[R1 R2] R3] R4] R5] R6]. exists s. apply String.eqb_eq in R1.
  split; [exact Js|]. split; [congruence|]. split; [lia|]. split; [lia|]. split; [apply all2_Forall2; exact R4|]. split; [apply distinct_NoDup; exact R5|].
  intros P. rewrite P in R6. exact R6.
Qed.
Lemma sent l vs kw b : In l layouts -> lays zeros (l_flds l) vs b -> keywords vs kw ->
  exists s m bs, In s registry /\ s_name s = l_name l /\ new_msg s kw = Ok m /\ compose m = Ok bs /\ bytes_ok bs /\
    bits_of bs = nbits 8 (l_cls l) ++ nbits 8 (l_cmd l) ++ b.
Proof.
  intros J L [G S]. destruct (layout_class l J) as (s & Js & N & C1 & C2 & F2 & ND & _).
  assert (AR : args s kw (s_attrs s) b).
  { eapply args_of; [exact L|exact F2|exact G| |].
    - intros x w E. destruct (S x w E) as (v & Jv). eapply in_names; eassumption.
    - intros a Ja Jn a' Ja' E. f_equal. symmetry. eapply (attr_names _ _ _ F2 (fun x H => H) ND (a_name a)); auto. }
  destruct (CodecProofs.new_msg_compose s kw b Js AR) as (m & bs & E1 & E2 & E3 & E4). exists s, m, bs. rewrite <- C1, <- C2. auto 8.
Qed.

(** * Receiving *)
Lemma cut_piece n l c b (a : attr) : width (a_ty a) = Some n -> (0 < n)%nat -> length c = n ->
  cut (a :: l) (c ++ b) = match cut l b with Some cs => Some (c :: cs) | None => None end.
Proof.
  intros W P L. subst n. cbn [cut]. destruct (c ++ b) as [|x y] eqn:E; [destruct c; [cbn in P; lia|discriminate]|]. rewrite <- E. rewrite W.
  replace (length (c ++ b) <? length c)%nat with false by (rewrite app_length; symmetry; apply Nat.ltb_ge; lia). rewrite skipn_app, firstn_app, Nat.sub_diag, skipn_all, firstn_all.
  cbn [firstn skipn]. rewrite app_nil_r. reflexivity.
Qed.
Lemma last_none x l cs : (forall a, In a l -> a_name a <> x) -> last_piece x l cs = None.
Proof.
  revert cs. induction l as [|a l IH]; intros cs N; [reflexivity|]. cbn. destruct cs as [|c cs]; [reflexivity|]. rewrite IH by (intros; apply N; right; assumption).
  destruct (String.eqb_spec x (a_name a)); [|reflexivity]. exfalso. apply (N a); [left; reflexivity|congruence].
Qed.
Definition read_as (x : string) (v : content) (l : list attr) (cs : list (list bool)) : Prop :=
  match last_piece x l cs with
  | Some c => forall t w, declared x l = Some t -> reads t c w -> shows v w
  | None => v = Raw [] /\ declared x l = Some TBytes
  end.
Lemma read_skip x v a l c cs : a_name a <> x -> read_as x v l cs -> read_as x v (a :: l) (c :: cs).
Proof.
  intros N R. unfold read_as in *. cbn. destruct (String.eqb_spec x (a_name a)); [congruence|]. destruct (last_piece x l cs); exact R.
Qed.
Lemma read_here a v l c cs : (forall a', In a' l -> a_name a' <> a_name a) -> (forall w, reads (a_ty a) c w -> shows v w) -> read_as (a_name a) v (a :: l) (c :: cs).
Proof. intros N R. unfold read_as. cbn. rewrite last_none by exact N. rewrite String.eqb_refl. intros t w E. injection E as <-. auto. Qed.

Lemma other_names ns fs l : Forall2 (fun f a => fld_ok ns f a = true) fs l -> forall x, In x ns -> ~ In x (names fs) -> forall a, In a l -> a_name a <> x.
Proof.
  induction 1 as [|f a0 fs l K F IH]; intros x I N a J E; [destruct J|]. cbn in N. rewrite in_app_iff in N. destruct J as [<-|J]; [|eapply IH; eauto].
  unfold fld_ok in K. rewrite !andb_true_iff in K. destruct K as [_ K]. destruct (fname f) as [y|]; [apply String.eqb_eq in K; apply N; left; left; congruence|].
  apply negb_true_iff, not_in_str in K. congruence.
Qed.
Lemma cut_lays ns fs vs b : lays anything fs vs b -> forall l, Forall2 (fun f a => fld_ok ns f a = true) fs l -> (forall x, In x (names fs) -> In x ns) -> NoDup (names fs) ->
  forallb (fun f => match f with M _ | C _ | H _ => false | _ => true end) fs = true ->
  exists cs, cut l b = Some cs /\ forall x v, In (x, v) vs -> read_as x v l cs.
Proof.
  assert (ST : forall x (c : content) f fs vs a0 l b, lays anything fs vs b -> fname f = Some x -> a_name a0 = x ->
     Forall2 (fun f a => fld_ok ns f a = true) fs l -> (forall y, In y (names (f :: fs)) -> In y ns) -> NoDup (names (f :: fs)) ->
     forall cb, (exists n, width (a_ty a0) = Some n /\ (0 < n)%nat /\ length cb = n) -> (forall w, reads (a_ty a0) cb w -> shows c w) ->
     (exists cs, cut l b = Some cs /\ forall x v, In (x, v) vs -> read_as x v l cs) ->
     exists cs, cut (a0 :: l) (cb ++ b) = Some cs /\ forall y v, In (y, v) ((x, c) :: vs) -> read_as y v (a0 :: l) cs).
  { clear fs vs b. intros x c f fs vs a0 l b L Y E F3 S N cb (n & W & P & Lc) RD (cs & CU & RA). cbn in S, N. rewrite Y in S, N. cbn in S, N. inversion N as [|? ? N1 N2]; subst.
    exists (cb :: cs). split; [rewrite (cut_piece _ _ _ _ _ W P eq_refl), CU; reflexivity|]. intros y v [J|J].
    - injection J as <- <-. apply read_here; [|exact RD]. eapply other_names; [exact F3|apply S; left; reflexivity|exact N1].
    - apply read_skip; [|auto]. intros E. apply N1. rewrite E. eapply in_names; eassumption. }
  induction 1 as [|x n z fs vs b Z0 L IH|x f fs vs b L IH|n c fs vs b Lc Zc L IH|x bs fs vs b B LB L IH|x z fs vs b Z0 L IH|x bs B|x l0 ML|x m b EM|x fs vs b L IH];
    intros l F2 S N PL; inversion F2 as [|f0 a0 fs0 l0' K F3 E1 E2]; subst; clear F2; try discriminate PL; try (unfold fld_ok in K; rewrite !andb_true_iff in K).
  - exists []. split; [reflexivity|]. intros x v [].
  - destruct K as [[K1 K2] K3]. cbn in K3. apply String.eqb_eq in K3. eapply (ST x (Num z) (U x n)); eauto.
    + exists n. rewrite nbits_length. destruct (a_ty a0); cbn [ty_ok] in K1; try discriminate; try destruct signed; try discriminate; cbn [width]; (split; [f_equal; lia|split; lia]).
    + intros w RD. assert (E : num (nbits n z) = z) by (apply num_nbits_small; exact Z0). destruct (a_ty a0); cbn [ty_ok] in K1; try discriminate; try destruct signed; try discriminate; inversion RD; subst; cbn; exact E.
    + apply IH; [assumption|intros y Y; apply S; right; exact Y|cbn in N; inversion N; assumption|exact PL].
  - destruct K as [[K1 K2] K3]. cbn in K3. apply String.eqb_eq in K3. change (f :: b) with ([f] ++ b). eapply (ST x (Bit f) (F x)); eauto.
    + exists 1%nat. destruct (a_ty a0); cbn [ty_ok] in K1; try discriminate; cbn; auto.
    + intros w RD. destruct (a_ty a0); cbn [ty_ok] in K1; try discriminate; inversion RD; subst; destruct f; reflexivity.
    + apply IH; [assumption|intros y Y; apply S; right; exact Y|cbn in N; inversion N; assumption|exact PL].
  - destruct K as [[K1 K2] K3]. cbn in K3. apply negb_true_iff, not_in_str in K3. destruct (IH _ F3) as (cs & CU & RA); auto.
    exists (c :: cs). split.
    + rewrite (cut_piece (length c)), CU; [reflexivity| | |reflexivity]; destruct (a_ty a0); cbn [ty_ok] in K1; try discriminate; cbn; [f_equal; lia|lia].
    + intros x v J. apply read_skip; [|auto]. intros E. apply K3. rewrite E. apply S. cbn. eapply in_names; eassumption.
  - destruct K as [[K1 K2] K3]. cbn in K3. apply String.eqb_eq in K3. eapply (ST x (Raw bs) (K x)); eauto.
    + exists 128%nat. rewrite bits_of_length, LB. destruct (a_ty a0); cbn [ty_ok] in K1; try discriminate. cbn [width]. split; [reflexivity|split; [lia|reflexivity]].
    + intros w RD. destruct (a_ty a0); cbn [ty_ok] in K1; try discriminate; inversion RD; subst. cbn. apply bits_of_inj; assumption.
    + apply IH; [assumption|intros y Y; apply S; right; exact Y|cbn in N; inversion N; assumption|exact PL].
  - destruct K as [[K1 K2] K3]. cbn in K3. apply String.eqb_eq in K3. eapply (ST x (Addr z) (A x)); eauto.
    + exists 128%nat. rewrite nbits_length. destruct (a_ty a0); cbn [ty_ok] in K1; try discriminate. cbn [width]. split; [reflexivity|split; [lia|reflexivity]].
    + intros w RD. destruct (a_ty a0); cbn [ty_ok] in K1; try discriminate; inversion RD; subst. cbn [shows]. apply num_nbits_small. exact Z0.
    + apply IH; [assumption|intros y Y; apply S; right; exact Y|cbn in N; inversion N; assumption|exact PL].
  - inversion F3; subst. destruct K as [[K1 K2] K3]. cbn in K3. apply String.eqb_eq in K3. subst x. destruct a0 as [nm t p q]. cbn in *. destruct t; cbn [ty_ok] in K1; try discriminate.
    destruct bs as [|y bs].
    + exists []. split; [reflexivity|]. intros x v [J|[]]. injection J as <- <-. unfold read_as. cbn. rewrite String.eqb_refl. auto.
    + exists [bits_of (y :: bs)]. split; [reflexivity|]. intros x v [J|[]]. injection J as <- <-. apply (read_here (mkA nm TBytes p q)); [intros a' []|].
      cbn [a_ty]. intros w RD. inversion RD; subst. cbn [shows]. apply bits_of_inj; assumption.
Qed.

Lemma received l vs b p : In l layouts -> plain l = true -> lays anything (l_flds l) vs b -> bytes_ok p -> bits_of p = b ->
  exists s m, In s registry /\ s_name s = l_name l /\ decode (l_cls l :: l_cmd l :: p) = Ok m /\ (exists d, m = VObj (CMsg s) d) /\
    forall x v, In (x, v) vs -> shows v (getattr m x) \/ v = Raw [] /\ getattr m x = VPBytes [].
Proof.
  intros J PL L B E. destruct (layout_class l J) as (s & Js & N & C1 & C2 & F2 & ND & FL). destruct (cut_lays _ _ _ _ L _ F2 (fun x H => H) ND PL) as (cs & CU & RA).
  pose proof (DecodeProofs.decode_flat s p Js (FL PL) B) as D. rewrite E, CU in D. destruct D as (d & D1 & D2). rewrite C1, C2 in D1.
  exists s, (VObj (CMsg s) d). split; [exact Js|]. split; [exact N|]. split; [exact D1|]. split; [eauto|]. intros x v Jx. specialize (RA x v Jx). specialize (D2 x). unfold read_as in RA.
  rewrite DecodeProofs.getattr_spec. destruct (last_piece x (s_attrs s) cs).
  - destruct D2 as (w & t & A1 & A2 & A3). rewrite A1. left. eauto.
  - destruct RA as [-> A2]. rewrite D2, A2. right. auto.
Qed.
