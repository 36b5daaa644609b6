(** Proofs about storage. *)
From Coq Require Import String Ascii ZArith List Bool Lia Permutation FinFun.
From Verif Require Import Py Schema Codec Text ValueProofs NodeProofs StorageM SpecStorage.
Import ListNotations.
Open Scope list_scope.
Open Scope string_scope.
Open Scope list_scope.
Open Scope Z_scope.

(** ** text *)
Lemma py_int_all z : py_int (str_of_Z z) = Ok z.
Proof.
  destruct (Z.ltb_spec z 0) as [L|L]; [|apply py_int_str; lia].
  unfold str_of_Z. rewrite (proj2 (Z.ltb_lt z 0)) by lia. unfold py_int.
  assert (D : Forall (fun c => is_digit c = true) (dec_digits (dec_fuel (- z)) (- z) [])) by (apply dec_digits_all; [lia|constructor]).
  rewrite strip_none.
  - destruct (dec_fuel_ok (- z)) as [A B]; [lia|]. rewrite digits_dec by lia. cbn. f_equal. lia.
  - constructor; [reflexivity|]. eapply Forall_impl; [|exact D]. intros. apply digit_not_space. assumption.
Qed.
Lemma str_inj a b : str_of_Z a = str_of_Z b -> a = b.
Proof. intros H. pose proof (py_int_all a) as A. rewrite H, py_int_all in A. congruence. Qed.
Lemma chars_inj : forall a b, chars a = chars b -> a = b.
Proof.
  induction a as [|x a IH]; destruct b as [|y b]; cbn; try discriminate; intros H; [reflexivity|].
  injection H as H1 H2. apply Nat2Z.inj in H1. apply IH in H2. subst b.
  rewrite <- (ascii_nat_embedding x), <- (ascii_nat_embedding y), H1. reflexivity.
Qed.
Lemma pystr_spec a : forall b, Bool.reflect (a = b) (pystr_eqb a b).
Proof.
  induction a as [|x a IH]; destruct b as [|y b]; cbn; try (constructor; congruence).
  destruct (Z.eqb_spec x y); cbn; [|constructor; congruence]. subst. destruct (IH b); constructor; congruence.
Qed.
Lemma str_no58 z : Forall (fun c => c <> 58) (str_of_Z z).
Proof.
  assert (D : forall n, 0 <= n -> Forall (fun c => c <> 58) (dec_digits (dec_fuel n) n [])).
  { intros n N. eapply Forall_impl; [|apply dec_digits_all; [lia|constructor]]. intros c E. unfold is_digit in E. lia. }
  unfold str_of_Z. destruct (Z.ltb_spec z 0); [constructor; [lia|]|]; apply D; lia.
Qed.

(** ** dictionaries under any key type *)
Section D.
  Context {K : Type} (eqb : K -> K -> bool) (sp : forall a b, Bool.reflect (a = b) (eqb a b)).
  Lemma get_in {V} k (d : list (K * V)) v : dget eqb k d = Some v -> In (k, v) d.
  Proof. induction d as [|[k' v'] d IH]; cbn; [discriminate|]. destruct (sp k k') as [->|]; intros H; [injection H as ->; auto|auto]. Qed.
  Lemma in_get {V} k (d : list (K * V)) v : NoDup (map fst d) -> In (k, v) d -> dget eqb k d = Some v.
  Proof.
    induction d as [|[k' v'] d IH]; cbn; [tauto|]. intros N I. inversion N; subst. destruct (sp k k') as [->|Hn].
    - destruct I as [E|I]; [congruence|]. exfalso. apply H1. apply in_map_iff. exists (k', v). auto.
    - destruct I as [E|I]; [congruence|]. auto.
  Qed.
  Lemma get_none {V} k (d : list (K * V)) : dget eqb k d = None <-> ~ In k (map fst d).
  Proof.
    induction d as [|[k' v'] d IH]; cbn; [tauto|]. destruct (sp k k') as [->|]; [split; [discriminate|tauto]|].
    rewrite IH. split; [intros A [B|B]; [congruence|tauto]|tauto].
  Qed.
  Lemma get_perm {V} k (d d' : list (K * V)) : NoDup (map fst d) -> Permutation d d' -> dget eqb k d' = dget eqb k d.
  Proof.
    intros N P. assert (N' : NoDup (map fst d')) by (eapply Permutation_NoDup; [apply Permutation_map; exact P|exact N]).
    destruct (dget eqb k d) eqn:E.
    - apply in_get; [assumption|]. eapply Permutation_in; [exact P|]. apply get_in. assumption.
    - apply get_none. apply get_none in E. intros I. apply E. eapply Permutation_in; [apply Permutation_sym, Permutation_map; exact P|exact I].
  Qed.
  Lemma get_map {V W} (f : V -> W) k (d : list (K * V)) : dget eqb k (map (fun e => (fst e, f (snd e))) d) = option_map f (dget eqb k d).
  Proof. induction d as [|[k' v] d IH]; cbn; [reflexivity|]. destruct (eqb k k'); auto. Qed.
  Lemma get_set {V} k k' v (d : list (K * V)) : dget eqb k (dset eqb k' v d) = if eqb k k' then Some v else dget eqb k d.
  Proof.
    induction d as [|[a w] d IH]; cbn; [reflexivity|]. destruct (sp k' a) as [->|]; cbn.
    - destruct (sp k a) as [->|]; reflexivity.
    - destruct (sp k a) as [->|]; [destruct (sp a k'); congruence|exact IH].
  Qed.
  Lemma set_fresh {V} k v (d : list (K * V)) : ~ In k (map fst d) -> dset eqb k v d = d ++ [(k, v)].
  Proof. induction d as [|[a w] d IH]; cbn; intros H; [reflexivity|]. destruct (sp k a); [exfalso; apply H; auto|]. rewrite IH by tauto. reflexivity. Qed.
End D.
Lemma get_keys {K L V} (ek : K -> K -> bool) (el : L -> L -> bool) (sk : forall a b, Bool.reflect (a = b) (ek a b))
  (sl : forall a b, Bool.reflect (a = b) (el a b)) (f : K -> L) (inj : forall a b, f a = f b -> a = b) (d : list (K * V)) k :
  dget el (f k) (map (fun e => (f (fst e), snd e)) d) = dget ek k d.
Proof.
  induction d as [|[a v] d IH]; cbn; [reflexivity|]. destruct (sk k a) as [->|].
  - destruct (sl (f a) (f a)); congruence.
  - destruct (sl (f k) (f a)) as [E|]; [apply inj in E; congruence|exact IH].
Qed.
Lemma insert_perm {A} leb (x : A) l : Permutation (x :: l) (insert leb x l).
Proof. induction l as [|y l IH]; cbn; [reflexivity|]. destruct (leb x y); [reflexivity|]. rewrite perm_swap. constructor. exact IH. Qed.
Lemma isort_perm {A} leb (l : list A) : Permutation l (isort leb l).
Proof. induction l as [|x l IH]; cbn; [constructor|]. rewrite <- insert_perm. constructor. exact IH. Qed.
Lemma map_fst_map {K V W} (f : V -> W) (d : list (K * V)) : map fst (map (fun e => (fst e, f (snd e))) d) = map fst d.
Proof. rewrite map_map. apply map_ext. intros []. reflexivity. Qed.

(** looking things up in what BaseLoader returned *)
Lemma yaml_names d n : NoDup (map fst d) ->
  dget pystr_eqb (chars n) (map (fun e => (chars (fst e), snd e)) (isort by_name (map (fun e => (fst e, yaml (snd e))) d))) =
  option_map yaml (dget String.eqb n d).
Proof.
  intros N. rewrite (get_keys String.eqb pystr_eqb String.eqb_spec pystr_spec chars chars_inj).
  rewrite (get_perm String.eqb String.eqb_spec n (map (fun e => (fst e, yaml (snd e))) d)); [|rewrite map_fst_map; exact N|apply isort_perm].
  apply get_map.
Qed.
Lemma yaml_numbers d k : NoDup (map fst d) ->
  dget pystr_eqb (str_of_Z k) (map (fun e => (str_of_Z (fst e), snd e)) (isort by_number (map (fun e => (fst e, yaml (snd e))) d))) =
  option_map yaml (dget Z.eqb k d).
Proof.
  intros N. rewrite (get_keys Z.eqb pystr_eqb Z.eqb_spec pystr_spec str_of_Z str_inj).
  rewrite (get_perm Z.eqb Z.eqb_spec k (map (fun e => (fst e, yaml (snd e))) d)); [|rewrite map_fst_map; exact N|apply isort_perm].
  apply get_map.
Qed.

(** ** what comes back *)
Definition back (x : seen) : seen := match x with IsList l => IsList (map (fun v => py_of (yaml v)) l) | x => x end.
(** every attribute declaration has distinct names, all the way down *)
Fixpoint fresh_names (l : list string) : bool :=
  match l with [] => true | n :: l' => negb (existsb (String.eqb n) l') && fresh_names l' end.
Lemma fresh_nodup l : fresh_names l = true -> NoDup l.
Proof.
  induction l as [|n l IH]; cbn; [constructor|]. intros H. apply andb_prop in H as [A B]. constructor; [|auto].
  intros I. apply negb_true_iff in A. rewrite <- not_true_iff_false in A. apply A. apply existsb_exists. exists n. split; [exact I|apply String.eqb_refl].
Qed.
Fixpoint distinct (t : styp) : bool :=
  match t with
  | ADict t => distinct t
  | AObj attrs => fresh_names (map fst attrs) &&
      (fix go l := match l with [] => true | (_, t) :: l' => distinct t && go l' end) attrs
  | _ => true
  end.

Lemma load_dict t (r : list (Z * ytree)) (f : Z -> sval) :
  (forall k y, In (k, y) r -> setstate t y = Ok (f k)) -> NoDup (map fst r) ->
  setstate (ADict t) (YMap (map (fun e => (str_of_Z (fst e), snd e)) r)) = Ok (SDict (map (fun e => (fst e, f (fst e))) r)).
Proof.
  intros H N. cbn [setstate].
  enough (G : forall r acc, (forall k y, In (k, y) r -> setstate t y = Ok (f k)) -> NoDup (map fst acc ++ map fst r) ->
    (fix go (d : list (pystr * ytree)) (acc : list (Z * sval)) : res sval :=
             match d with
             | [] => Ok (SDict acc)
             | (k, y') :: d' => do k' <- py_int k; do v <- setstate t y'; go d' (dset Z.eqb k' v acc)
             end) (map (fun e => (str_of_Z (fst e), snd e)) r) acc = Ok (SDict (acc ++ map (fun e => (fst e, f (fst e))) r))).
  { rewrite G; [reflexivity|exact H|exact N]. }
  clear. induction r as [|[k y] r IH]; intros acc H N; cbn [map fst snd]; [rewrite app_nil_r; reflexivity|].
  rewrite py_int_all. cbn [bind]. rewrite (H k y) by (left; reflexivity). cbn [bind].
  assert (F : ~ In k (map fst acc)). { intros I. apply NoDup_remove_2 in N. apply N, in_or_app. auto. }
  rewrite (set_fresh Z.eqb Z.eqb_spec) by exact F. rewrite IH.
  - rewrite <- app_assoc. reflexivity.
  - intros. apply H. right. assumption.
  - rewrite map_app. cbn. rewrite <- app_assoc. exact N.
Qed.

Lemma load_obj attrs d : NoDup (map fst attrs) ->
  (forall n t y, In (n, t) attrs -> dget pystr_eqb (chars n) d = Some y -> exists v, setstate t y = Ok v) ->
  exists o, setstate (AObj attrs) (YMap d) = Ok (SObj o) /\ (forall n t, In (n, t) attrs ->
    dget String.eqb n o = match dget pystr_eqb (chars n) d with
                          | None => None
                          | Some y => match setstate t y with Ok v => Some v | Err _ => None end
                          end) /\ (forall n, ~ In n (map fst attrs) -> dget String.eqb n o = None).
Proof.
  intros N H. cbn [setstate].
  enough (G : forall attrs acc, NoDup (map fst attrs) ->
    (forall n t y, In (n, t) attrs -> dget pystr_eqb (chars n) d = Some y -> exists v, setstate t y = Ok v) ->
    (forall n, In n (map fst attrs) -> dget String.eqb n acc = None) ->
    exists o, (fix go (attrs : list (string * styp)) (acc : list (string * sval)) : res sval :=
             match attrs with
             | [] => Ok (SObj acc)
             | (n, t') :: attrs' =>
                 match dget pystr_eqb (chars n) d with
                 | None => go attrs' acc
                 | Some y' => do v <- setstate t' y'; go attrs' (dset String.eqb n v acc)
                 end
             end) attrs acc = Ok (SObj o) /\ (forall n t, In (n, t) attrs ->
    dget String.eqb n o = match dget pystr_eqb (chars n) d with
                          | None => None
                          | Some y => match setstate t y with Ok v => Some v | Err _ => None end
                          end) /\ (forall n, ~ In n (map fst attrs) -> dget String.eqb n o = dget String.eqb n acc)).
  { destruct (G attrs []) as (o & A & B & C); [exact N|exact H|reflexivity|]. exists o. split; [exact A|]. split; [exact B|].
    intros n I. rewrite C by exact I. reflexivity. }
  clear. induction attrs as [|[n t] attrs IH]; intros acc N H F.
  - exists acc. split; [reflexivity|]. split; [intros n t []|reflexivity].
  - cbn [map fst] in *. inversion N as [|? ? N1 N2]; subst. destruct (dget pystr_eqb (chars n) d) as [y|] eqn:E.
    + destruct (H n t y) as [v V]; [left; reflexivity|exact E|]. rewrite V. cbn [bind].
      destruct (IH (dset String.eqb n v acc)) as (o & A & B & C); [exact N2|intros; eapply H; [right|]; eassumption| |].
      { intros m I. rewrite (get_set String.eqb String.eqb_spec). destruct (String.eqb_spec m n); [congruence|]. apply F. right. exact I. }
      exists o. split; [exact A|]. split.
      * intros m t' [I|I]; [|apply B; exact I]. injection I as <- <-. rewrite E, V, C by exact N1.
        rewrite (get_set String.eqb String.eqb_spec), String.eqb_refl. reflexivity.
      * intros m I. rewrite C by (intros X; apply I; right; exact X). rewrite (get_set String.eqb String.eqb_spec). destruct (String.eqb_spec m n); [subst; exfalso; apply I; left; reflexivity|reflexivity].
    + destruct (IH acc) as (o & A & B & C); [exact N2|intros; eapply H; [right|]; eassumption|intros; apply F; right; assumption|].
      exists o. split; [exact A|]. split.
      * intros m t' [I|I]; [|apply B; exact I]. injection I as <- <-. rewrite E, C by exact N1. apply F. left. reflexivity.
      * intros m I. apply C. intros X. apply I. right. exact X.
Qed.

Lemma distinct_obj attrs : distinct (AObj attrs) = true -> NoDup (map fst attrs) /\ forall n t, In (n, t) attrs -> distinct t = true.
Proof.
  cbn [distinct]. intros H. apply andb_prop in H as [ND H]. split; [apply fresh_nodup; exact ND|].
  clear ND. induction attrs as [|[n t] l IH]; [intros ? ? []|]. apply andb_prop in H as [H1 H2].
  intros m t' [E|E]; [congruence|]. eapply IH; eauto.
Qed.
Lemma nodup_attr (attrs : list (string * styp)) n (t t' : styp) : NoDup (map fst attrs) -> In (n, t) attrs -> In (n, t') attrs -> t = t'.
Proof.
  intros N A B. apply (in_get String.eqb String.eqb_spec) in A; [|exact N]. apply (in_get String.eqb String.eqb_spec) in B; [|exact N]. congruence.
Qed.

Lemma round_trip t v : typed t v -> distinct t = true ->
  exists v', setstate t (yaml (getstate v)) = Ok v' /\ forall p, look p v' = option_map back (look p v).
Proof.
  induction 1 as [z|s|l HL|l|t d N HT IH|attrs d N HD HT IH]; intros DT.
  - exists (SInt z). cbn. rewrite py_int_all. split; [reflexivity|]. intros [|[] ?]; reflexivity.
  - exists (SText s). split; [reflexivity|]. intros [|[] ?]; reflexivity.
  - exists (SNodes l). split; [|intros [|[] ?]; reflexivity]. cbn [getstate yaml setstate].
    assert (E : map_res (fun y => match y with YText s => node_of_val (VStr s) | _ => Err EType end)
                  (map yaml (map (fun p => PStr (node_text p)) l)) = Ok l).
    { clear -HL. induction l as [|[n e] l IH]; [reflexivity|]. cbn [map yaml map_res].
      rewrite node_text_ok; [|apply (HL n e); left; reflexivity|apply (HL n e); left; reflexivity]. cbn [bind].
      rewrite IH; [reflexivity|]. intros. apply HL. right. assumption. }
    rewrite E. reflexivity.
  - exists (SList (map (fun v => py_of (yaml v)) l)). split; [cbn; rewrite map_map; reflexivity|]. intros [|[] ?]; reflexivity.
  - cbn [distinct] in DT.
    set (f := fun k => match dget Z.eqb k d with Some v => match setstate t (yaml (getstate v)) with Ok v' => v' | Err _ => SInt 0 end | None => SInt 0 end).
    set (r := isort by_number (map (fun e => (fst e, yaml (snd e))) (map (fun e => (fst e, getstate (snd e))) d))).
    assert (P : Permutation (map (fun e => (fst e, yaml (getstate (snd e)))) d) r).
    { unfold r. rewrite map_map. cbn [fst snd]. apply isort_perm. }
    assert (NR : NoDup (map fst r)).
    { eapply Permutation_NoDup; [apply Permutation_map; exact P|]. rewrite map_map. cbn [fst]. exact N. }
    assert (L : forall k y, In (k, y) r -> setstate t y = Ok (f k)).
    { intros k y I. apply (Permutation_in _ (Permutation_sym P)), in_map_iff in I as ([k' v] & E & I). cbn in E. injection E as <- <-.
      unfold f. rewrite (in_get Z.eqb Z.eqb_spec _ _ v N I). destruct (IH k' v I DT) as (v' & V & _). rewrite V. reflexivity. }
    exists (SDict (map (fun e => (fst e, f (fst e))) r)). split; [exact (load_dict t r f L NR)|].
    intros [|[n|k] p]; [reflexivity|reflexivity|]. cbn [look].
    assert (G : dget Z.eqb k (map (fun e => (fst e, f (fst e))) r) = if dmem Z.eqb k d then Some (f k) else None).
    { assert (G : dget Z.eqb k (map (fun e => (fst e, f (fst e))) r) = if dmem Z.eqb k r then Some (f k) else None).
      { clear. unfold dmem. induction r as [|[a v] r IH]; cbn; [reflexivity|]. destruct (Z.eqb_spec k a); [subst; reflexivity|exact IH]. }
      rewrite G. unfold dmem. rewrite (get_perm Z.eqb Z.eqb_spec k (map (fun e => (fst e, yaml (getstate (snd e)))) d)); [| |exact P].
      - rewrite (get_map Z.eqb (fun v => yaml (getstate v))). destruct (dget Z.eqb k d); reflexivity.
      - rewrite map_map. cbn [fst]. exact N. }
    rewrite G. unfold dmem. destruct (dget Z.eqb k d) as [v|] eqn:E; [|reflexivity].
    unfold f. rewrite E. destruct (IH k v) as (v' & V & W); [apply (get_in Z.eqb Z.eqb_spec); exact E|exact DT|]. rewrite V. apply W.
  - apply distinct_obj in DT as [NA DA].
    set (y := map (fun e => (chars (fst e), snd e)) (isort by_name (map (fun e => (fst e, yaml (snd e))) (map (fun e => (fst e, getstate (snd e))) d)))).
    assert (Y : forall n, dget pystr_eqb (chars n) y = option_map (fun v => yaml (getstate v)) (dget String.eqb n d)).
    { intros n. unfold y. rewrite yaml_names by (rewrite map_fst_map; exact N). rewrite (get_map String.eqb getstate).
      destruct (dget String.eqb n d); reflexivity. }
    destruct (load_obj attrs y NA) as (o & A & B & C).
    { intros n t y' I E. rewrite Y in E. destruct (dget String.eqb n d) as [v|] eqn:G; [|discriminate]. injection E as <-.
      apply (get_in String.eqb String.eqb_spec) in G. destruct (IH n v t G I (DA n t I)) as (v' & V & _). eauto. }
    exists (SObj o). split; [exact A|]. intros [|[n|k] p]; [reflexivity| |reflexivity]. cbn [look].
    destruct (dget String.eqb n d) as [v|] eqn:E.
    + pose proof (get_in String.eqb String.eqb_spec _ _ _ E) as I. destruct (HD n v I) as [t TI].
      rewrite (B n t TI), Y, E. cbn [option_map]. destruct (IH n v t I TI (DA n t TI)) as (v' & V & W). rewrite V. apply W.
    + destruct (in_dec string_dec n (map fst attrs)) as [I|I].
      * apply in_map_iff in I as ([n' t] & E' & I). cbn in E'. subst n'. rewrite (B n t I), Y, E. reflexivity.
      * rewrite C by exact I. reflexivity.
Qed.

(** ** one command class *)
Lemma set_attrs_all d v i : forall attrs a, NoDup (map fst attrs) ->
  (forall n t y, In (n, t) attrs -> dget pystr_eqb (chars n) d = Some y -> exists x, setstate t y = Ok x) ->
  exists o, set_attrs attrs d (mkCls v i a) = (mkCls v i o, None) /\ (forall n t, In (n, t) attrs ->
    dget String.eqb n o = match dget pystr_eqb (chars n) d with
                          | None => dget String.eqb n a
                          | Some y => match setstate t y with Ok x => Some x | Err _ => None end
                          end) /\ (forall n, ~ In n (map fst attrs) -> dget String.eqb n o = dget String.eqb n a).
Proof.
  induction attrs as [|[n t] attrs IH]; intros a N H.
  - exists a. split; [reflexivity|]. split; [intros n t []|reflexivity].
  - cbn [map fst] in *. inversion N as [|? ? N1 N2]; subst. cbn [set_attrs]. destruct (dget pystr_eqb (chars n) d) as [y|] eqn:E.
    + destruct (H n t y) as [x V]; [left; reflexivity|exact E|]. rewrite V. cbn [c_version c_interviewed c_attrs].
      destruct (IH (dset String.eqb n x a)) as (o & A & B & C); [exact N2|intros; eapply H; [right|]; eassumption|].
      exists o. split; [exact A|]. split.
      * intros m t' [I|I].
        -- injection I as <- <-. rewrite E, V, C by exact N1. rewrite (get_set String.eqb String.eqb_spec), String.eqb_refl. reflexivity.
        -- rewrite (B m t' I). rewrite (get_set String.eqb String.eqb_spec). destruct (String.eqb_spec m n); [|reflexivity].
           subst. exfalso. apply N1. apply in_map_iff. exists (n, t'). auto.
      * intros m I. rewrite C by (intros X; apply I; right; exact X). rewrite (get_set String.eqb String.eqb_spec). destruct (String.eqb_spec m n); [subst; exfalso; apply I; left; reflexivity|reflexivity].
    + destruct (IH a) as (o & A & B & C); [exact N2|intros; eapply H; [right|]; eassumption|].
      exists o. split; [exact A|]. split.
      * intros m t' [I|I]; [|apply B; exact I]. injection I as <- <-. rewrite E. apply C. exact N1.
      * intros m I. apply C. intros X. apply I. right. exact X.
Qed.

Lemma cls_round attrs c c0 : typed (AObj attrs) (SObj (c_attrs c)) -> distinct (AObj attrs) = true ->
  ~ In "version" (map fst attrs) -> ~ In "interviewed" (map fst attrs) ->
  exists c', cls_setstate attrs (yaml (cls_getstate c)) c0 = (c', None) /\ c_version c' = c_version c /\ c_interviewed c' = true /\
    forall n p, look_class (Attr n :: p) c' =
      if dmem String.eqb n (c_attrs c) then option_map back (look_class (Attr n :: p) c) else look_class (Attr n :: p) c0.
Proof.
  intros T DT NV NI. inversion T as [| | | | |? ? N HD HT]; subst. pose proof (distinct_obj _ DT) as [NA DA].
  set (full := map (fun e => (fst e, getstate (snd e))) (c_attrs c) ++ [("interviewed", PBool (c_interviewed c)); ("version", PInt (c_version c))]).
  assert (NV' : ~ In "version" (map fst (c_attrs c))).
  { intros I. apply in_map_iff in I as ([n v] & E & I). cbn in E. subst n. destruct (HD _ _ I) as [t J]. apply NV. apply in_map_iff. exists ("version", t). auto. }
  assert (NI' : ~ In "interviewed" (map fst (c_attrs c))).
  { intros I. apply in_map_iff in I as ([n v] & E & I). cbn in E. subst n. destruct (HD _ _ I) as [t J]. apply NI. apply in_map_iff. exists ("interviewed", t). auto. }
  assert (NF : NoDup (map fst full)).
  { unfold full. rewrite map_app, map_fst_map. cbn [map fst]. 
    apply (Permutation_NoDup (Permutation_app_comm ["interviewed"; "version"] (map fst (c_attrs c)))). cbn. constructor.
    - intros [E|I]; [discriminate|auto].
    - constructor; assumption. }
  set (y := map (fun e => (chars (fst e), snd e)) (isort by_name (map (fun e => (fst e, yaml (snd e))) full))).
  assert (Y : forall n, dget pystr_eqb (chars n) y = option_map yaml (dget String.eqb n full)) by (intros; apply yaml_names; exact NF).
  assert (GF : forall n, n <> "version" -> n <> "interviewed" -> dget String.eqb n full = option_map getstate (dget String.eqb n (c_attrs c))).
  { intros n N1 N2. unfold full. rewrite <- (get_map String.eqb). clear -N1 N2. induction (map (fun e => (fst e, getstate (snd e))) (c_attrs c)) as [|[a b] l IH]; cbn [dget app].
    - destruct (String.eqb_spec n "interviewed"); [contradiction|]. destruct (String.eqb_spec n "version"); [contradiction|reflexivity].
    - destruct (n =? a)%string; [reflexivity|exact IH]. }
  assert (V : dget String.eqb "version" full = Some (PInt (c_version c))).
  { apply (in_get String.eqb String.eqb_spec); [exact NF|]. unfold full. apply in_or_app. right. right. left. reflexivity. }
  assert (I : dget String.eqb "interviewed" full = Some (PBool (c_interviewed c))).
  { apply (in_get String.eqb String.eqb_spec); [exact NF|]. unfold full. apply in_or_app. right. left. reflexivity. }
  change (yaml (cls_getstate c)) with (YMap y). unfold cls_setstate. rewrite (Y "version"), V. cbn [option_map yaml]. rewrite py_int_all.
  rewrite (Y "interviewed"), I. cbn [option_map yaml].
  assert (B : negb (zlen (chars (if c_interviewed c then "true" else "false")) =? 0) = true) by (destruct (c_interviewed c); reflexivity).
  rewrite B.
  assert (NE : forall n t, In (n, t) attrs -> n <> "version" /\ n <> "interviewed").
  { intros n t J. split; intros ->; [apply NV|apply NI]; apply in_map_iff; eexists; (split; [|exact J]); reflexivity. }
  destruct (set_attrs_all y (c_version c) true attrs (c_attrs c0) NA) as (o & A & P & Q).
  { intros n t y' J E. destruct (NE n t J). rewrite Y, GF in E by assumption. destruct (dget String.eqb n (c_attrs c)) as [v|] eqn:G; [|discriminate].
    injection E as <-. apply (get_in String.eqb String.eqb_spec) in G. destruct (round_trip t v (HT n v t G J) (DA n t J)) as (v' & R & _). eauto. }
  exists (mkCls (c_version c) true o). split; [exact A|]. split; [reflexivity|]. split; [reflexivity|].
  intros n p. unfold look_class, dmem. cbn [look c_attrs].
  destruct (dget String.eqb n (c_attrs c)) as [v|] eqn:E.
  - pose proof (get_in String.eqb String.eqb_spec _ _ _ E) as J. destruct (HD n v J) as [t TI]. destruct (NE n t TI).
    rewrite (P n t TI), Y, GF, E by assumption. cbn [option_map].
    destruct (round_trip t v (HT n v t J TI) (DA n t TI)) as (v' & R & W). rewrite R. apply W.
  - destruct (in_dec string_dec n (map fst attrs)) as [J|J].
    + apply in_map_iff in J as ([n' t] & E' & J). cbn in E'. subst n'. destruct (NE n t J). rewrite (P n t J), Y, GF, E by assumption. reflexivity.
    + rewrite Q by exact J. reflexivity.
Qed.

Lemma stored_ok id : distinct (AObj (stored id)) = true /\ ~ In "version" (map fst (stored id)) /\ ~ In "interviewed" (map fst (stored id)).
Proof.
  unfold stored.
  repeat match goal with |- context [if ?b then _ else _] => destruct b end;
    (split; [vm_compute; reflexivity|split; cbn; intros H; repeat (destruct H as [H|H]; [discriminate|]); exact H]).
Qed.

(** ** one node *)
Lemma load_all s : node_ok s -> forall fresh,
  exists after, load_classes (map (fun e => (str_of_Z (fst e), snd e)) (isort by_number (map (fun e => (fst e, yaml (snd e))) (map (fun e => (fst e, cls_getstate (snd e))) s)))) fresh = (after, None)
  /\ map fst after = map fst fresh /\
  (forall i id c0, nth_error fresh i = Some (id, c0) -> exists c', nth_error after i = Some (id, c') /\
     match dget Z.eqb id s with
     | None => c' = c0
     | Some c => c_version c' = c_version c /\ c_interviewed c' = true /\ forall n p, look_class (Attr n :: p) c' =
         if dmem String.eqb n (c_attrs c) then option_map back (look_class (Attr n :: p) c) else look_class (Attr n :: p) c0
     end).
Proof.
  intros [N T]. induction fresh as [|[id c0] fresh IH].
  - exists []. split; [reflexivity|]. split; [reflexivity|]. intros [|i] ? ? H; discriminate.
  - cbn [load_classes]. rewrite yaml_numbers by (rewrite map_fst_map; exact N). rewrite (get_map Z.eqb cls_getstate).
    destruct IH as (after & A & K & B). destruct (dget Z.eqb id s) as [c|] eqn:E; cbn [option_map].
    + destruct (stored_ok id) as (S1 & S2 & S3). apply (get_in Z.eqb Z.eqb_spec) in E as I.
      destruct (cls_round (stored id) c c0 (T id c I) S1 S2 S3) as (c' & R & V). rewrite R, A.
      exists ((id, c') :: after). split; [reflexivity|]. split; [cbn; rewrite K; reflexivity|].
      intros [|i] id' c1 H; cbn [nth_error] in *; [|apply B; exact H]. injection H as <- <-. exists c'. rewrite E. auto.
    + rewrite A. exists ((id, c0) :: after). split; [reflexivity|]. split; [cbn; rewrite K; reflexivity|].
      intros [|i] id' c1 H; cbn [nth_error] in *; [|apply B; exact H]. injection H as <- <-. exists c0. rewrite E. auto.
Qed.

Lemma dget_nth {V} k (d : list (Z * V)) v : dget Z.eqb k d = Some v -> exists i, nth_error d i = Some (k, v).
Proof. intros H. apply (get_in Z.eqb Z.eqb_spec), In_nth_error in H. exact H. Qed.

Lemma save_load cut base n e s d fresh : node_ok s -> NoDup (map fst fresh) ->
  exists after, node_added cut base n e (node_updated base n e s d) fresh = (after, None) /\ map fst after = map fst fresh /\
  forall id c0, dget Z.eqb id fresh = Some c0 -> exists c', dget Z.eqb id after = Some c' /\
     match dget Z.eqb id s with
     | None => c' = c0
     | Some c => c_version c' = c_version c /\ c_interviewed c' = true /\ forall n p, look_class (Attr n :: p) c' =
         if dmem String.eqb n (c_attrs c) then option_map back (look_class (Attr n :: p) c) else look_class (Attr n :: p) c0
     end.
Proof.
  intros OK NF. unfold node_added, node_updated. rewrite (get_set pystr_eqb pystr_spec). destruct (pystr_spec (path base n e) (path base n e)); [|congruence].
  cbn [parse]. destruct (load_all s OK fresh) as (after & A & K & B). exists after.
  unfold settings. cbn [yaml map isort insert fst snd dget]. destruct (pystr_spec (chars "supported") (chars "supported")); [|congruence].
  split; [exact A|]. split; [exact K|]. intros id c0 H. destruct (dget_nth id fresh c0 H) as [i I].
  destruct (B i id c0 I) as (c' & C & D). exists c'. split; [|exact D]. apply (in_get Z.eqb Z.eqb_spec); [rewrite K; exact NF|].
  eapply nth_error_In. exact C.
Qed.

(** ** paths *)
Lemma app_58 a b c d : Forall (fun c => c <> 58) a -> Forall (fun c => c <> 58) b -> a ++ 58 :: c = b ++ 58 :: d -> a = b /\ c = d.
Proof.
  intros A. revert b. induction A as [|x a X A IH]; intros b B E; destruct B as [|y b Y B]; cbn in E.
  - injection E as ->. auto.
  - exfalso. inversion E. apply Y. congruence.
  - exfalso. inversion E. apply X. congruence.
  - injection E as -> E. apply IH in E as [-> ->]; auto.
Qed.
Lemma path_inj base n e n' e' : path base n e = path base n' e' -> n = n' /\ e = e'.
Proof.
  unfold path, node_id. intros H. apply app_inv_head in H. apply app_inv_head in H. apply app_inv_tail in H.
  apply app_58 in H; try apply str_no58. destruct H as [A B]. split; apply str_inj; assumption.
Qed.
Lemma cut_other base n e n' e' s parts k d : (n, e) <> (n', e') ->
  dget pystr_eqb (path base n' e') (save_cut base n e s parts k d) = dget pystr_eqb (path base n' e') d.
Proof.
  intros H. unfold save_cut, disk_put. destruct (saving _ _ _ _); [|reflexivity]. rewrite (get_set pystr_eqb pystr_spec).
  destruct (pystr_spec (path base n' e') (path base n e)) as [E|]; [|reflexivity]. apply path_inj in E as [-> ->]. congruence.
Qed.
Lemma cut_same base n e s parts k d : dget pystr_eqb (path base n e) (save_cut base n e s parts k d) = saving (dget pystr_eqb (path base n e) d) s parts k.
Proof.
  unfold save_cut, disk_put. destruct (saving _ _ _ _) eqn:E.
  - rewrite (get_set pystr_eqb pystr_spec). destruct (pystr_spec (path base n e) (path base n e)); congruence.
  - destruct k; cbn in E; [exact E|]. destruct (k <=? parts)%nat; discriminate.
Qed.
Lemma py_of_yaml v : plain v = true -> py_of (yaml v) = as_text v.
Proof.
  revert v. fix IH 1. intros [z|b|s|l|d|d] H; cbn in *; try discriminate; try reflexivity. f_equal.
  induction l as [|x l IHl]; cbn in *; [reflexivity|]. apply andb_prop in H as [H1 H2]. f_equal; [apply IH; exact H1|apply IHl; exact H2].
Qed.

(** ** lists occur only where declared *)
Fixpoint no_list (t : styp) : bool :=
  match t with
  | AList => false
  | ADict t => no_list t
  | AObj attrs => (fix go l := match l with [] => true | (_, t) :: l' => no_list t && go l' end) attrs
  | _ => true
  end.
Lemma no_list_obj attrs : no_list (AObj attrs) = true -> forall n t, In (n, t) attrs -> no_list t = true.
Proof.
  cbn. induction attrs as [|[n t] l IH]; [intros ? ? ? []|]. intros H. apply andb_prop in H as [H1 H2].
  intros m t' [E|E]; [congruence|]. eapply IH; eauto.
Qed.
Lemma no_list_look t v : typed t v -> no_list t = true -> forall p l, look p v <> Some (IsList l).
Proof.
  induction 1 as [z|s|l HL|l|t d N HT IH|attrs d N HD HT IH]; intros DT p l'; destruct p as [|[n|k] p]; cbn; try discriminate.
  - destruct (dget Z.eqb k d) as [v|] eqn:E; [|discriminate]. apply (IH k v); [|exact DT]. apply (get_in Z.eqb Z.eqb_spec). exact E.
  - destruct (dget String.eqb n d) as [v|] eqn:E; [|discriminate]. apply (get_in String.eqb String.eqb_spec) in E. destruct (HD n v E) as [t T].
    apply (IH n v t E T). eapply no_list_obj; eassumption.
Qed.
Lemma same_back p c id : typed (AObj (stored id)) (SObj (c_attrs c)) -> In id c65_classes -> option_map back (look_class p c) = look_class p c.
Proof.
  intros T I. assert (NL : no_list (AObj (stored id)) = true).
  { cbn in I. repeat (destruct I as [<-|I]; [vm_compute; reflexivity|]). destruct I. }
  unfold look_class. pose proof (no_list_look _ _ T NL p) as L. destruct (look p (SObj (c_attrs c))) as [[| | | |]|]; try reflexivity.
  exfalso. eapply L. reflexivity.
Qed.

Lemma restored cut base n e s d fresh : node_ok s -> NoDup (map fst fresh) ->
  exists after, node_added cut base n e (node_updated base n e s d) fresh = (after, None) /\
  forall id c c0, dget Z.eqb id s = Some c -> dget Z.eqb id fresh = Some c0 ->
  exists c', dget Z.eqb id after = Some c' /\ c_version c' = c_version c /\
    (In id c65_classes -> forall p x, look_class p c = Some x -> look_class p c' = Some x) /\
    (In id c65_classes -> c_attrs c0 = [] -> forall p, look_class p c' = look_class p c).
Proof.
  intros OK NF. destruct (save_load cut base n e s d fresh OK NF) as (after & A & K & B). exists after. split; [exact A|].
  intros id c c0 C C0. destruct (B id c0 C0) as (c' & G & H). exists c'. rewrite C in H. destruct H as (V & _ & L).
  split; [exact G|]. split; [exact V|].
  assert (T : typed (AObj (stored id)) (SObj (c_attrs c))). { apply OK. apply (get_in Z.eqb Z.eqb_spec). exact C. }
  split.
  - intros I [|[m|k] p] x; [trivial| |discriminate]. intros X. rewrite L. rewrite (same_back _ c id T I).
    unfold dmem. unfold look_class in X. cbn [look] in X. destruct (dget String.eqb m (c_attrs c)) eqn:E; [|discriminate]. unfold look_class. cbn [look]. rewrite E. exact X.
  - intros I E0 [|[m|k] p]; [reflexivity| |reflexivity]. rewrite L. rewrite (same_back _ c id T I). unfold dmem, look_class. cbn [look].
    rewrite E0. destruct (dget String.eqb m (c_attrs c)); reflexivity.
Qed.
Lemma interviewed_back cut base n e s d fresh : node_ok s -> NoDup (map fst fresh) ->
  exists after, node_added cut base n e (node_updated base n e s d) fresh = (after, None) /\
  forall id c c0, dget Z.eqb id s = Some c -> dget Z.eqb id fresh = Some c0 ->
  exists c', dget Z.eqb id after = Some c' /\ c_interviewed c' = true /\ (c_interviewed c' = c_interviewed c <-> c_interviewed c = true).
Proof.
  intros OK NF. destruct (save_load cut base n e s d fresh OK NF) as (after & A & K & B). exists after. split; [exact A|].
  intros id c c0 C C0. destruct (B id c0 C0) as (c' & G & H). exists c'. rewrite C in H. destruct H as (_ & V & _).
  split; [exact G|]. split; [exact V|]. rewrite V. split; congruence.
Qed.
(** association group information: everything but the command lists, and what becomes of those *)
Lemma agi_back cut base n e s d fresh c c0 : node_ok s -> NoDup (map fst fresh) ->
  dget Z.eqb 89 s = Some c -> dget Z.eqb 89 fresh = Some c0 ->
  exists after c', node_added cut base n e (node_updated base n e s d) fresh = (after, None) /\ dget Z.eqb 89 after = Some c' /\
    (forall p x, look_class p c = Some x -> (forall l, x <> IsList l) -> look_class p c' = Some x) /\
    (forall p l, look_class p c = Some (IsList l) -> forallb plain l = true -> look_class p c' = Some (IsList (map as_text l))).
Proof.
  intros OK NF C C0. destruct (save_load cut base n e s d fresh OK NF) as (after & A & K & B).
  destruct (B 89 c0 C0) as (c' & G & H). exists after, c'. split; [exact A|]. split; [exact G|]. rewrite C in H. destruct H as (_ & _ & L).
  assert (Q : forall p x, look_class p c = Some x -> look_class p c' = Some (back x)).
  { intros [|[m|k] p] x X; [injection X as <-; reflexivity| |discriminate]. rewrite L. unfold dmem.
    assert (D : dget String.eqb m (c_attrs c) <> None). { intros N. unfold look_class in X. cbn [look] in X. rewrite N in X. discriminate. }
    destruct (dget String.eqb m (c_attrs c)); [|congruence]. rewrite X. reflexivity. }
  split.
  - intros p x X NL. rewrite (Q p x X). destruct x; try reflexivity. exfalso. eapply NL. reflexivity.
  - intros p l X PL. rewrite (Q p _ X). cbn [back]. do 2 f_equal. clear -PL. induction l as [|v l IH]; [reflexivity|].
    cbn in PL. apply andb_prop in PL as [P1 P2]. cbn [map]. rewrite (py_of_yaml v P1), (IH P2). reflexivity.
Qed.
(** crashes *)
Lemma crash cut base n e s parts d fresh :
  let at_ k := save_cut base n e s parts k d in
  node_added cut base n e (at_ 0%nat) fresh = node_added cut base n e d fresh /\
  node_added cut base n e (at_ 1%nat) fresh = (fresh, Some EAttribute) /\
  (forall k, (parts + 1 < k)%nat -> node_added cut base n e (at_ k) fresh = node_added cut base n e (node_updated base n e s d) fresh) /\
  (forall k n' e', (n, e) <> (n', e') -> node_added cut base n' e' (at_ k) fresh = node_added cut base n' e' d fresh).
Proof.
  cbn zeta. unfold node_added. split; [rewrite cut_same; reflexivity|]. split; [rewrite cut_same; cbn [saving]; reflexivity|]. split.
  - intros k K. rewrite cut_same. destruct k as [|k]; [lia|]. cbn [saving]. rewrite (proj2 (Nat.leb_gt k parts)) by lia.
    unfold node_updated. rewrite (get_set pystr_eqb pystr_spec). destruct (pystr_spec (path base n e) (path base n e)); [reflexivity|congruence].
  - intros k n' e' H. rewrite cut_other by exact H. reflexivity.
Qed.
