(** Proofs about the settings of nodes over time. *)
From Coq Require Import String ZArith List Bool Lia.
From Verif Require Import Py Waiter Registry ConnLemmas StorageM SpecStorage StorageProofs HistM SpecHist.
From Verif Require InterviewVisit.
Import ListNotations.
Open Scope list_scope.
Open Scope string_scope.
Open Scope list_scope.
Open Scope Z_scope.

Lemma hrun_from cut base vs : forall vs0 h0 tr0 h tr, hexec cut base vs0 h0 tr0 -> hrun cut base h0 vs = Some (h, tr) -> hexec cut base (vs0 ++ vs) h (tr0 ++ tr).
Proof.
  induction vs as [|v vs IH]; intros vs0 h0 tr0 h tr X; cbn [hrun].
  - intros H. injection H as <- <-. rewrite !app_nil_r. exact X.
  - destruct (hstep cut base h0 v) as [[h1 os]|] eqn:S; [|discriminate]. destruct (hrun cut base h1 vs) as [[h2 tr2]|] eqn:R; [|discriminate]. intros H. injection H as <- <-.
    replace (vs0 ++ v :: vs) with ((vs0 ++ [v]) ++ vs) by (rewrite <- app_assoc; reflexivity). rewrite app_assoc. eapply IH; [econstructor; eassumption|exact R].
Qed.
Lemma hrun_exec cut base vs h tr : hrun cut base hist0 vs = Some (h, tr) -> hexec cut base vs h tr.
Proof. intros H. exact (hrun_from cut base vs [] hist0 [] h tr (HX_nil _ _) H). Qed.
Lemma same_spec n e n' e' : Bool.reflect ((n, e) = (n', e')) (same n e n' e').
Proof. unfold same. destruct (Z.eqb_spec n n'), (Z.eqb_spec e e'); constructor; congruence. Qed.
Lemma saved_snoc n e tr os : last_saved n e (tr ++ os) = fold_left (fun acc o => match o with WSaved _ n' e' s => if same n e n' e' then Some s else acc | _ => acc end) os (last_saved n e tr).
Proof. apply fold_left_app. Qed.
(** the file of a node holds what was saved last *)
Lemma file_saved cut base vs h tr n e : hexec cut base vs h tr -> (forall i, ~ In (WCut i n e) tr) -> dget pystr_eqb (path base n e) (h_disk h) = option_map (fun s => Whole (settings s)) (last_saved n e tr).
Proof.
  induction 1 as [|vs h tr v h' os X IH ST]; intros C; [reflexivity|]. assert (C' : forall i, ~ In (WCut i n e) tr) by (intros i J; apply (C i), in_or_app; auto). specialize (IH C'). rewrite saved_snoc.
  destruct v as [n0 e0 fresh|i s|i|i|i| |i parts k]; cbn [hstep] in ST; try (destruct (alive i h) as [o|]; [|discriminate]); injection ST as <- <-; cbn [fold_left h_disk put_sup]; try exact IH.
  - unfold node_updated. rewrite (get_set pystr_eqb pystr_spec). destruct (same_spec n e (h_node o) (h_end o)) as [E|E].
    + injection E as <- <-. destruct (pystr_spec (path base n e) (path base n e)); [reflexivity|congruence].
    + destruct (pystr_spec (path base n e) (path base (h_node o) (h_end o))) as [P|P]; [|exact IH]. destruct (path_inj _ _ _ _ _ P). congruence.
  - rewrite cut_other; [exact IH|]. intros E. injection E as E1 E2. apply (C i), in_or_app. right. left. congruence.
Qed.
Lemma added_file cut base n e d d' s : dget pystr_eqb (path base n e) d = dget pystr_eqb (path base n e) d' -> node_added cut base n e d s = node_added cut base n e d' s.
Proof. intros H. unfold node_added. rewrite H. reflexivity. Qed.
Lemma load_restores cut base n e d s fresh : dget pystr_eqb (path base n e) d = option_map (fun s => Whole (settings s)) s -> (forall x, s = Some x -> node_ok x) -> NoDup (map fst fresh) ->
  exists after, node_added cut base n e d fresh = (after, None) /\ restores s fresh after.
Proof.
  intros F OK N. destruct s as [s|].
  - rewrite (added_file cut base n e d (node_updated base n e s d)).
    2:{ rewrite F. unfold node_updated. rewrite (get_set pystr_eqb pystr_spec). destruct (pystr_spec (path base n e) (path base n e)); [reflexivity|congruence]. }
    destruct (save_load cut base n e s d fresh (OK s eq_refl) N) as (after & A & K & _). destruct (restored cut base n e s d fresh (OK s eq_refl) N) as (after' & A' & R). rewrite A in A'. injection A' as <-.
    destruct (save_load cut base n e s d fresh (OK s eq_refl) N) as (after' & A' & _ & B). rewrite A in A'. injection A' as <-.
    exists after. split; [exact A|]. split; [exact K|]. intros id c0 G. destruct (B id c0 G) as (c' & G' & M). exists c'. split; [exact G'|]. destruct (dget Z.eqb id s) as [c|] eqn:E; [|exact M].
    destruct (R id c c0 E G) as (c'' & G'' & V & L & _). rewrite G' in G''. injection G'' as <-. auto.
  - exists fresh. split; [|reflexivity]. unfold node_added. rewrite F. reflexivity.
Qed.
Lemma saved_in n e tr : forall s, last_saved n e tr = Some s -> exists i, In (WSaved i n e s) tr.
Proof.
  induction tr as [|o tr IH] using rev_ind; intros s; [discriminate|]. rewrite saved_snoc. cbn [fold_left]. destruct o as [| i n' e' s'| | | |]; try (intros H; destruct (IH s H) as [j J]; exists j; apply in_or_app; auto; fail).
  destruct (same_spec n e n' e') as [E|E]; [|intros H; destruct (IH s H) as [j J]; exists j; apply in_or_app; auto]. intros H. injection E as <- <-. injection H as <-. exists i. apply in_or_app. right. left. reflexivity.
Qed.
(** every load gives what was saved last under the id *)
Lemma loads_last cut base vs h tr n e a i before after x c : hexec cut base vs h tr -> tr = a ++ WLoaded i n e before (after, x) :: c -> sound n e tr -> x = None /\ restores (last_saved n e a) before after.
Proof.
  intros X. revert a c. induction X as [|vs h tr v h' os X IH ST]; intros a c E S; [destruct a; discriminate|].
  assert (S' : sound n e tr). { destruct S as (S1 & S2 & S3). split; [|split]; intros; [eapply S1|eapply S2|intros J; eapply S3]; apply in_or_app; left; eassumption. }
  destruct (InterviewVisit.split_two _ _ _ _ _ E) as [[c' Y]|(a' & -> & E')]; [exact (IH _ _ Y S')|]. clear IH.
  destruct v as [n0 e0 fresh|j s|j|j|j| |j parts k]; cbn [hstep] in ST; try (destruct (alive j h) as [o|]; [|discriminate]); injection ST as <- <-; try (destruct a' as [|y [|z a']]; discriminate E').
  2: destruct a' as [|y [|z [|w a']]]; discriminate E'.
  destruct a' as [|y a']; [|injection E' as _ E'; destruct a'; discriminate E']. injection E' as <- <- <- <- R _. rewrite app_nil_r.
  destruct S as (S1 & S2 & S3). destruct (load_restores cut base (h_node o) (h_end o) (h_disk h) (last_saved (h_node o) (h_end o) tr) (h_sup o)) as (after' & A & RS).
  - exact (file_saved _ _ _ _ _ _ _ X (proj2 (proj2 S'))).
  - intros s J. destruct (saved_in _ _ _ _ J) as [q Q]. exact (proj1 S' _ _ Q).
  - eapply S2. apply in_or_app. right. left. reflexivity.
  - rewrite A in R. injection R as <- <-. auto.
Qed.
Lemma saved_quiet n e b : forall a, (forall i s, ~ In (WSaved i n e s) b) -> last_saved n e (a ++ b) = last_saved n e a.
Proof.
  induction b as [|o b IH] using rev_ind; intros a H; [rewrite app_nil_r; reflexivity|]. rewrite app_assoc, saved_snoc, IH by (intros i s J; apply (H i s), in_or_app; auto). cbn [fold_left].
  destruct o as [| i n' e' s'| | | |]; try reflexivity. destruct (same_spec n e n' e') as [E|]; [|reflexivity]. injection E as <- <-. destruct (H i s'). apply in_or_app. right. left. reflexivity.
Qed.
Lemma due_saved n e a : (forall i, ~ In (WGone i n e) a) -> due n e a = last_saved n e a.
Proof.
  induction a as [|o a IH] using rev_ind; intros H; [reflexivity|]. unfold due, last_saved in *. rewrite !fold_left_app, IH by (intros i J; apply (H i), in_or_app; auto). cbn [fold_left].
  destruct o as [| | |i n' e'| |]; try reflexivity. destruct (same_spec n e n' e') as [E|]; [|reflexivity]. injection E as <- <-. destruct (H i). apply in_or_app. right. left. reflexivity.
Qed.
Lemma settings_survive cut base vs h tr n e a i fresh b before after x c : hexec cut base vs h tr -> tr = a ++ WNew i n e fresh :: b ++ WLoaded i n e before (after, x) :: c -> sound n e tr ->
  (forall j s, ~ In (WSaved j n e s) b) -> (forall j, ~ In (WGone j n e) a) -> x = None /\ restores (due n e a) before after.
Proof.
  intros X E S B G. rewrite (due_saved _ _ _ G), <- (saved_quiet n e (WNew i n e fresh :: b) a); [|intros j s [J|J]; [discriminate|exact (B _ _ J)]].
  apply (loads_last cut base vs h tr n e (a ++ WNew i n e fresh :: b) i before after x c X); [|exact S]. rewrite E, <- app_assoc. reflexivity.
Qed.
