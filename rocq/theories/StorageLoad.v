(** Loading any settings file. *)
From Coq Require Import String ZArith List Bool Lia ZifyBool Permutation.
From Verif Require Import Py Text StorageM SpecStorage SpecSettings StorageProofs.
Import ListNotations.
Open Scope list_scope.
Open Scope string_scope.
Open Scope list_scope.
Open Scope Z_scope.

Lemma place_path base n e : path base n e = place base n e.
Proof. unfold path, place, node_id. rewrite !app_assoc. reflexivity. Qed.
Definition ymap (st : list (string * py)) : list (pystr * ytree) := map (fun e => (chars (fst e), snd e)) (isort by_name (map (fun e => (fst e, yaml (snd e))) st)).
Definition ynum (l : list (Z * py)) : list (pystr * ytree) := map (fun e => (str_of_Z (fst e), snd e)) (isort by_number (map (fun e => (fst e, yaml (snd e))) l)).
Lemma isort_nil {A} leb (l : list A) : isort leb l = [] -> l = [].
Proof. intros E. pose proof (isort_perm leb l) as P. rewrite E in P. apply Permutation_sym, Permutation_nil in P. exact P. Qed.
Lemma zlen_zero {A} (l : list A) : (zlen l =? 0) = match l with [] => true | _ => false end.
Proof. unfold zlen. destruct l; [reflexivity|]. cbn [length]. destruct (Z.eqb_spec (Z.of_nat (S (length l))) 0); [lia|reflexivity]. Qed.
Lemma map_empty {A B} (f : A -> B) l : match map f l with [] => true | _ => false end = match l with [] => true | _ => false end.
Proof. destruct l; reflexivity. Qed.
Lemma isort_empty {A} leb (l : list A) : match isort leb l with [] => true | _ => false end = match l with [] => true | _ => false end.
Proof. destruct l as [|x l]; [reflexivity|]. destruct (isort leb (x :: l)) eqn:E; [apply isort_nil in E; discriminate|reflexivity]. Qed.
Lemma str_nonempty z : str_of_Z z <> [].
Proof. intros E. pose proof (py_int_all z) as P. rewrite E in P. vm_compute in P. discriminate. Qed.
Lemma interviewed_yaml x : match yaml x with YText s => negb (zlen s =? 0) | YSeq l => negb (zlen l =? 0) | YMap l => negb (zlen l =? 0) end = counts x.
Proof.
  destruct x as [z|b|s|l|l|l]; cbn [yaml counts]; rewrite zlen_zero, ?map_empty, ?isort_empty, ?map_empty.
  - destruct (str_of_Z z) eqn:E; [elim (str_nonempty _ E)|reflexivity].
  - destruct b; reflexivity.
  - destruct s; reflexivity.
  - destruct l; reflexivity.
  - destruct l; reflexivity.
  - destruct l; reflexivity.
Qed.
Lemma load_class id st c : readable id st -> exists c', cls_setstate (stored id) (yaml (PSDict st)) c = (c', None) /\ set_by id st c c'.
Proof.
  intros (N & V & A). destruct (stored_ok id) as (DT & NV & NI). destruct (distinct_obj _ DT) as [NA DA].
  change (yaml (PSDict st)) with (YMap (ymap st)). unfold cls_setstate.
  assert (Y : forall n, dget pystr_eqb (chars n) (ymap st) = option_map yaml (dget String.eqb n st)) by (intros; apply yaml_names; exact N).
  rewrite !Y. set (v := match dget String.eqb "version" st with Some (PInt z) => z | _ => 0 end).
  assert (EV : match option_map yaml (dget String.eqb "version" st) with None => Ok 0 | Some (YText s) => py_int s | Some _ => Err EType end = Ok v).
  { unfold v. destruct (dget String.eqb "version" st) as [[z|b|s|l|l|l]|]; try contradiction; [exact (py_int_all z)|reflexivity]. }
  rewrite EV. set (i := match dget String.eqb "interviewed" st with Some x => counts x | None => false end).
  assert (EI : match option_map yaml (dget String.eqb "interviewed" st) with None => false | Some (YText s) => negb (zlen s =? 0) | Some (YSeq l) => negb (zlen l =? 0) | Some (YMap l) => negb (zlen l =? 0) end = i).
  { unfold i. destruct (dget String.eqb "interviewed" st) as [x|]; [exact (interviewed_yaml x)|reflexivity]. }
  cbv zeta. rewrite EI.
  destruct (set_attrs_all (ymap st) v i (stored id) (c_attrs c) NA) as (o & S & P & Q).
  { intros n t y J E. rewrite Y in E. destruct (dget String.eqb n st) as [x|] eqn:G; [|discriminate]. injection E as <-. destruct (A n t x J G) as (w & T & ->).
    destruct (round_trip t w T (DA n t J)) as (w' & R & _). eauto. }
  exists (mkCls v i o). split; [exact S|]. split; [reflexivity|]. split; [reflexivity|]. split.
  - intros n w t J G T p. unfold look_class. cbn [look c_attrs]. rewrite (P n t J), Y, G. cbn [option_map]. destruct (round_trip t w T (DA n t J)) as (w' & R & W). rewrite R. exact (W p).
  - intros n [G|G]; cbn [c_attrs].
    + destruct (in_dec string_dec n (map fst (stored id))) as [J|J]; [|exact (Q n J)]. apply in_map_iff in J as ([n' t] & E & J). cbn in E. subst n'. rewrite (P n t J), Y, G. reflexivity.
    + apply Q. intros J. apply in_map_iff in J as ([n' t] & E & J). cbn in E. subst n'. exact (G t J).
Qed.
Lemma load_list l s : NoDup (map fst l) -> NoDup (map fst s) -> all_readable l s -> exists s', load_classes (ynum l) s = (s', None) /\ loaded l s s'.
Proof.
  intros NL. induction s as [|[id c] s IH]; intros NS R; [exists []; split; [reflexivity|]; split; [reflexivity|intros id c []]|].
  cbn [map fst] in NS. inversion NS as [|? ? N1 N2]; subst. destruct IH as (s' & L & K & B); [exact N2|intros i x y J; exact (R i x y (or_intror J))|].
  cbn [load_classes]. unfold ynum at 1. rewrite yaml_numbers by exact NL. destruct (dget Z.eqb id l) as [x|] eqn:E; cbn [option_map].
  - destruct (R id c x (or_introl eq_refl) E) as (st & -> & RD). destruct (load_class id st c RD) as (c' & C & S). rewrite C, L. exists ((id, c') :: s'). split; [reflexivity|]. split; [cbn; rewrite K; reflexivity|].
    intros i x [J|J]; [injection J as <- <-; exists c'; split; [left; reflexivity|]; rewrite E; exact S|]. destruct (B i x J) as (x' & J' & M). exists x'. split; [right; exact J'|exact M].
  - rewrite L. exists ((id, c) :: s'). split; [reflexivity|]. split; [cbn; rewrite K; reflexivity|].
    intros i x [J|J]; [injection J as <- <-; exists c; split; [left; reflexivity|]; rewrite E; reflexivity|]. destruct (B i x J) as (x' & J' & M). exists x'. split; [right; exact J'|exact M].
Qed.
Lemma added_says cut base n e d l s : says base n e d l -> node_added cut base n e d s = load_classes (ynum l) s.
Proof.
  intros (top & D & NT & S & NL). unfold node_added. rewrite place_path, D. cbn [parse]. change (yaml (PSDict top)) with (YMap (ymap top)). cbv iota.
  assert (Y : dget pystr_eqb (chars "supported") (ymap top) = option_map yaml (dget String.eqb "supported" top)) by (apply yaml_names; exact NT). rewrite Y, S. reflexivity.
Qed.
Lemma loads cut base n e d l s : says base n e d l -> NoDup (map fst s) -> all_readable l s -> exists s', node_added cut base n e d s = (s', None) /\ loaded l s s'.
Proof. intros S N R. rewrite (added_says _ _ _ _ _ _ _ S). destruct S as (_ & _ & _ & _ & NL). exact (load_list l s NL N R). Qed.
Lemma no_file cut base n e d s : dget pystr_eqb (place base n e) d = None -> node_added cut base n e d s = (s, None).
Proof. intros D. unfold node_added. rewrite place_path, D. reflexivity. Qed.
Lemma saved_place base n e s d : dget pystr_eqb (place base n e) (node_updated base n e s d) = Some (Whole (settings s)).
Proof. unfold node_updated. rewrite place_path, (get_set pystr_eqb pystr_spec). destruct (pystr_spec (place base n e) (place base n e)); [reflexivity|congruence]. Qed.

(** an entry that cannot be read ends the loading there *)
Lemma load_app y s1 s2 : load_classes y (s1 ++ s2) =
  match load_classes y s1 with (a, None) => let (b, x) := load_classes y s2 in (a ++ b, x) | (a, Some x) => (a ++ s2, Some x) end.
Proof.
  induction s1 as [|[id c] s1 IH]; cbn [app load_classes]; [destruct (load_classes y s2); reflexivity|].
  destruct (dget pystr_eqb (str_of_Z id) y) as [t|]; [destruct (cls_setstate (stored id) t c) as [c' [x|]]; [reflexivity|]|]; rewrite IH; destruct (load_classes y s1) as [a [x|]]; try reflexivity; destruct (load_classes y s2); reflexivity.
Qed.
Lemma load_stops y s : forall after x, load_classes y s = (after, Some x) ->
  exists s1 id c s2 s1' c', s = s1 ++ (id, c) :: s2 /\ after = s1' ++ (id, c') :: s2 /\ load_classes y s1 = (s1', None) /\ load_classes y [(id, c)] = ([(id, c')], Some x) /\ dget pystr_eqb (str_of_Z id) y <> None.
Proof.
  induction s as [|[id c] s IH]; intros after x E; [discriminate|]. cbn [load_classes] in E. destruct (dget pystr_eqb (str_of_Z id) y) as [t|] eqn:D.
  - destruct (cls_setstate (stored id) t c) as [c' [x'|]] eqn:C.
    + injection E as <- <-. exists [], id, c, s, [], c'. split; [reflexivity|]. split; [reflexivity|]. split; [reflexivity|]. cbn [load_classes]. rewrite D, C. split; [reflexivity|discriminate].
    + destruct (load_classes y s) as [a z] eqn:L. injection E as <- ->. destruct (IH _ _ eq_refl) as (s1 & i & k & s2 & s1' & k' & -> & -> & L1 & L2 & ND).
      exists ((id, c) :: s1), i, k, s2, ((id, c') :: s1'), k'. split; [reflexivity|]. split; [reflexivity|]. cbn [load_classes] in *. rewrite D, C, L1. auto.
  - destruct (load_classes y s) as [a z] eqn:L. injection E as <- ->. destruct (IH _ _ eq_refl) as (s1 & i & k & s2 & s1' & k' & -> & -> & L1 & L2 & ND).
    exists ((id, c) :: s1), i, k, s2, ((id, c) :: s1'), k'. split; [reflexivity|]. split; [reflexivity|]. cbn [load_classes] in *. rewrite D, L1. auto.
Qed.
Lemma stops cut base n e d l s after x : says base n e d l -> node_added cut base n e d s = (after, Some x) ->
  exists s1 id c s2 s1' c', s = s1 ++ (id, c) :: s2 /\ after = s1' ++ (id, c') :: s2 /\ In id (map fst l) /\
    node_added cut base n e d s1 = (s1', None) /\ node_added cut base n e d [(id, c)] = ([(id, c')], Some x).
Proof.
  intros S E. rewrite (added_says _ _ _ _ _ _ _ S) in E. destruct (load_stops _ _ _ _ E) as (s1 & id & c & s2 & s1' & c' & A & B & C & D & F).
  exists s1, id, c, s2, s1', c'. rewrite !(added_says _ _ _ _ _ _ _ S). destruct S as (_ & _ & _ & _ & NL). unfold ynum in F. rewrite yaml_numbers in F by exact NL.
  repeat split; try assumption. destruct (dget Z.eqb id l) as [y|] eqn:G; [|elim F; reflexivity]. apply (get_in Z.eqb Z.eqb_spec) in G. apply in_map_iff. exists (id, y). auto.
Qed.
