(** Loading one node, whatever else runs (C102). *)
From Coq Require Import String ZArith List Bool Lia FinFun.
From Verif Require Import Py Schema Registry Codec Waiter Conn NodeM AppM SpecApp AppProofs AppUpdate AppRoute SpecLoad.
Import ListNotations.
Open Scope list_scope.
Open Scope string_scope.
Open Scope list_scope.
Open Scope Z_scope.

(** ** the table follows the trace, and objects stay *)
Lemma play_app k a : forall b x, play k (a ++ b) x = play k b (play k a x).
Proof. induction a as [|o a IH]; intros b x; [reflexivity|]. destruct o; cbn [List.app play]; apply IH. Qed.
Definition follows (d : tabs) (g : ago) : Prop := (exists x, snd (fst (fst g)) = snd d ++ x) /\ forall k, ent (fst (fst g)) k = play k (snd (fst g)) (ent d k).
Definition still (os : list aobs) : Prop := forall k x, play k os x = x.
Lemma follows_then d os g : still os -> follows d g -> follows d (obs_then os g).
Proof. destruct g as [[d' os'] p]. intros S [A B]. split; [exact A|]. intros k. cbn. rewrite play_app, S. apply B. Qed.
Lemma follows_same d os p : still os -> follows d (d, os, p).
Proof. intros S. split; [exists []; cbn; rewrite app_nil_r; reflexivity|]. intros k. cbn. symmetry. apply S. Qed.
Ltac stl := let k := fresh in let x := fresh in intros k x; reflexivity.
Ltac same := apply follows_same; stl.
Lemma follows_update me t rest : forall new d, follows d (update_loop me t rest new d).
Proof.
  induction rest as [|n rest IH]; intros new d; cbn [update_loop]; [destruct new; cbn; same|]. destruct (dmem _ _ _); [apply IH|]. destruct (n =? me); [apply IH|same].
Qed.
Lemma follows_start me t rest : forall d, follows d (start_loop me t rest d).
Proof. induction rest as [|n rest IH]; intros d; cbn [start_loop]; [same|]. destruct (n =? me); [apply IH|same]. Qed.
Lemma follows_loaded me t k nodes d : follows d (loaded me t k nodes d).
Proof. destruct k; [same|apply follows_update|apply follows_start]. Qed.
Lemma follows_caps me t n root ep last got k d : follows d (caps me t n root ep last got k d).
Proof. unfold caps. destruct (ep <=? last); [same|apply follows_loaded]. Qed.
Lemma follows_put t o d g : follows (fst (put t o d)) g -> follows d (obs_then [snd (put t o d)] g).
Proof.
  destruct g as [[d' os] p]. intros [(x & A) B]. cbn in A. split; [exists (o :: x); cbn; rewrite A, <- app_assoc; reflexivity|].
  intros k. specialize (B k). rewrite ent_put in B. cbn in B |- *. rewrite B. reflexivity.
Qed.
Lemma follows_remove me t rest all l d : follows d (remove me t rest all l d).
Proof.
  destruct rest as [|k rest]; cbn [remove]; [destruct all; [apply follows_update|same]|]. destruct (dmem _ _ _) eqn:M; [|same].
  split; [exists []; cbn; rewrite app_nil_r; reflexivity|]. intros k'. cbn. unfold ent. cbn [fst]. apply kget_del.
Qed.
Lemma follows_each t rest size d : follows d (start_each t rest size d).
Proof. unfold start_each. destruct (Nat.eqb _ _); [destruct rest|]; same. Qed.
Lemma follows_resume me t p a d g : aresume me t p a d = Some g -> follows d g.
Proof.
  destruct p, a; try discriminate; cbn [aresume]; intros H; try (injection H as <-);
    try match goal with |- follows _ (obs_then _ _) => apply follows_then; [stl|] end;
    try solve [same | apply follows_update | apply follows_remove | apply follows_caps | apply follows_start | apply follows_each].
  - unfold with_info. destruct (new_node cls) as [c|e]; [|same]. cbn zeta. set (o := mkO n 0 c basic generic specific listening None). rewrite (surjective_pairing (put t o d)).
    destruct (supports c 96); [apply (follows_put t o d (_, [OQuery t (QCount n)], _)); same|apply follows_put, follows_loaded].
  - unfold with_cap. destruct (new_node cls) as [c|e]; [|same]. cbn zeta. set (o := mkO n ep c 0 generic specific false (Some root)). rewrite (surjective_pairing (put t o d)). apply follows_put, follows_caps.
  - destruct new; same.
  - destruct rest; same.
  - destruct (int_is _ _); [destruct (int_is _ _)|]; injection H as <-; same.
Qed.
Lemma follows_begin me t c d : follows d (astart me t c d).
Proof.
  destruct c; cbn [astart]; try same.
  - destruct (n =? me); same.
  - unfold start_message. destruct (match ep with Some _ => _ | None => _ end); [same|]. destruct (root =? me); same.
  - unfold start_unhandled. destruct (is_msg _ _); [|same]. destruct (is_msg _ _); [same|]. destruct (is_msg _ _); [same|]. destruct (getattr m "command"); same.
Qed.
Lemma follows_case s e s' os : acase s e s' os -> (exists x, a_objs s' = a_objs s ++ x) /\ forall k, entry s' k = play k os (entry s k).
Proof.
  intros [z|c d o p E|t c p a d o p' N E|t c p x N NE].
  - split; [exists []; cbn; rewrite app_nil_r; reflexivity|]. reflexivity.
  - pose proof (follows_begin (a_me s) (length (a_tasks s)) c (tabs_of s)) as F. rewrite E in F. exact F.
  - exact (follows_resume _ _ _ _ _ _ E).
  - split; [exists []; cbn; rewrite app_nil_r; reflexivity|]. reflexivity.
Qed.
Lemma follows_exec s0 es s tr : aexec s0 es s tr -> (exists x, a_objs s = a_objs s0 ++ x) /\ forall k, entry s k = play k tr (entry s0 k).
Proof.
  induction 1 as [|es s tr e s' os X [(x & A) B] S]; [split; [exists []; rewrite app_nil_r; reflexivity|reflexivity]|].
  apply astep_case, follows_case in S as [(y & C) D]. split; [exists (x ++ y); rewrite C, A, app_assoc; reflexivity|]. intros k. rewrite D, B, play_app. reflexivity.
Qed.
Lemma table_trace s0 es s tr : aexec s0 es s tr -> forall k, entry s k = play k tr (entry s0 k).
Proof. intros X. apply (follows_exec _ _ _ _ X). Qed.

(** ** one load *)
Lemma after_after q o q' o' p : after q o (after q' o' p) = after (q ++ q') (o ++ o') p.
Proof. unfold after. cbn. rewrite !app_assoc. reflexivity. Qed.
Definition range (a b : Z) : list Z := map (fun i => a + Z.of_nat i) (seq 0 (Z.to_nat (b - a + 1))).
Lemma range_upto c : range 1 c = upto c.
Proof. unfold range, upto. replace (c - 1 + 1) with c by lia. rewrite <- seq_shift, map_map. apply map_ext. intros i. lia. Qed.
Lemma range_cons a b : a <= b -> range a b = a :: range (a + 1) b.
Proof.
  intros L. unfold range. replace (Z.to_nat (b - a + 1)) with (S (Z.to_nat (b - (a + 1) + 1))) by lia. cbn [seq map]. f_equal; [lia|]. rewrite <- seq_shift, map_map. apply map_ext. intros i. lia.
Qed.
Lemma range_nil a b : b < a -> range a b = [].
Proof. intros L. unfold range. replace (Z.to_nat (b - a + 1)) with 0%nat by lia. reflexivity. Qed.

(** so far: the questions [q] were answered, the objects [os] made *)
Record sofar (ids : list nat) (q : list query) (os : list nobj) (objs : list nobj) (h : list aobs) : Prop := mkSofar {
  sf_ask : asked h = q; sf_nd : NoDup ids; sf_objs : map (nth_error objs) ids = map Some os;
  sf_put : stored h = combine (map o_key os) ids; sf_silent : silent h }.
Definition linv (n : Z) (p : apc) (objs : list nobj) (rs : list (res answer)) (h : list aobs) : Prop :=
  exists ids q os, sofar ids q os objs h /\
  match p with
  | PInfo n' KLoad => n' = n /\ ids = [] /\ os = [] /\ q = [QInfo n] /\ rs = [] /\ ends h = []
  | PCount n' root KLoad => n' = n /\ ids = [root] /\ ends h = [] /\ exists q', q = q' ++ [QCount n] /\
      forall rs', plan_load n root (rs ++ rs') =
        after q' os (after [QCount n] [] match rs' with Ok (ACount k) :: rs'' => plan_endpoints n root (upto k) rs'' | Err x :: _ => mkPlan [] [] (Some (Err x)) | _ => mkPlan [] [] None end)
  | PCap n' root ep last got KLoad => n' = n /\ ids = got /\ hd 0%nat ids = root /\ ids <> [] /\ ep <= last /\ ends h = [] /\ exists q', q = q' ++ [QCap n ep] /\
      forall rs', plan_load n root (rs ++ rs') = after q' os (plan_endpoints n root (range ep last) rs')
  | PEnd r => plan_load n (hd 0%nat ids) rs = mkPlan q os (Some match r with Ok _ => Ok tt | Err e => Err e end) /\ ends h = [r] /\ (forall v, r = Ok v -> v = RNodes ids)
  | _ => False
  end.
Lemma asked_app a b : asked (a ++ b) = asked a ++ asked b. Proof. apply flat_map_app. Qed.
Lemma stored_app a b : stored (a ++ b) = stored a ++ stored b. Proof. apply flat_map_app. Qed.
Lemma ends_app a b : ends (a ++ b) = ends a ++ ends b. Proof. apply flat_map_app. Qed.
Lemma silent_app a b : silent a -> silent b -> silent (a ++ b).
Proof. intros A B o J. apply in_app_or in J as [J|J]; [exact (A o J)|exact (B o J)]. Qed.
Lemma nth_lt {A} (l : list A) ids (os : list A) : map (nth_error l) ids = map Some os -> forall i, In i ids -> (i < length l)%nat.
Proof.
  revert os. induction ids as [|j ids IH]; intros [|o os]; cbn; try discriminate; [intros _ i []|]. intros E i [<-|J]; injection E as E1 E2; [apply nth_error_Some; congruence|exact (IH _ E2 i J)].
Qed.
Lemma nth_more {A} (l x : list A) ids (os : list A) : map (nth_error l) ids = map Some os -> map (nth_error (l ++ x)) ids = map Some os.
Proof.
  intros E. rewrite <- E. apply map_ext_in. intros i J. apply nth_error_app1. exact (nth_lt _ _ _ E i J).
Qed.
Lemma map_len {A} (l : list A) ids (os : list A) : map (nth_error l) ids = map Some os -> length os = length ids.
Proof. intros E. apply (f_equal (@length _)) in E. rewrite !map_length in E. auto. Qed.
Lemma combine_snoc {A B} (a : list A) (b : list B) x y : length a = length b -> combine (a ++ [x]) (b ++ [y]) = combine a b ++ [(x, y)].
Proof. revert b. induction a as [|z a IH]; intros [|w b]; cbn; try discriminate; [reflexivity|]. intros E. injection E as E. rewrite IH; auto. Qed.
Lemma sofar_grow ids q os objs h x : sofar ids q os objs h -> sofar ids q os (objs ++ x) h.
Proof. intros [A B C D E]. constructor; auto. apply nth_more. exact C. Qed.
Lemma sofar_obs ids q os objs h l q' : sofar ids q os objs h -> asked l = q' -> stored l = [] -> silent l -> sofar ids (q ++ q') os objs (h ++ l).
Proof. intros [A B C D E] H1 H2 H3. constructor; auto; [rewrite asked_app; congruence|rewrite stored_app, H2, app_nil_r; exact D|apply silent_app; assumption]. Qed.
Lemma sofar_put ids q os t o d h : sofar ids q os (snd d) h -> sofar (ids ++ [length (snd d)]) q (os ++ [o]) (snd (fst (put t o d))) (h ++ [snd (put t o d)]).
Proof.
  intros [A B C D E]. pose proof (nth_lt _ _ _ C) as L. constructor.
  - rewrite asked_app, A. cbn. apply app_nil_r.
  - apply NoDup_rev in B. rewrite <- (rev_involutive (ids ++ _)). apply NoDup_rev. rewrite rev_app_distr. cbn [rev List.app]. constructor; [|exact B]. intros J. apply in_rev, L in J. lia.
  - cbn. rewrite !map_app, (nth_more _ _ _ _ C). cbn. rewrite nth_error_app2, Nat.sub_diag by lia. reflexivity.
  - rewrite stored_app, D, map_app. cbn. symmetry. apply combine_snoc. rewrite map_length. exact (map_len _ _ _ C).
  - apply silent_app; [exact E|]. intros ? [<-|[]]. exact I.
Qed.
Definition lgo (n : Z) (rs : list (res answer)) (h : list aobs) (g : ago) : Prop := linv n (snd g) (snd (fst (fst g))) rs (h ++ snd (fst g)).
Lemma lgo_then n rs h os g : lgo n rs (h ++ os) g -> lgo n rs h (obs_then os g).
Proof. destruct g as [[d os'] p]. unfold lgo. cbn. rewrite app_assoc. auto. Qed.
Ltac sil := let J := fresh in intros ? J; cbn in J; repeat (destruct J as [<-|J]; [exact I|]); destruct J.
Lemma caps_lgo n t me root ep last ids q os d h rs : sofar ids q os (snd d) h -> hd 0%nat ids = root -> ids <> [] -> ends h = [] ->
  (forall rs', plan_load n root (rs ++ rs') = after q os (plan_endpoints n root (range ep last) rs')) ->
  lgo n rs h (caps me t n root ep last ids KLoad d).
Proof.
  intros S R NI EH P. unfold caps. destruct (Z.leb_spec ep last) as [L|L].
  - exists ids, (q ++ [QCap n ep]), os. split; [apply sofar_obs; [exact S|reflexivity|reflexivity|sil]|]. split; [reflexivity|]. split; [reflexivity|]. split; [exact R|]. split; [exact NI|]. split; [exact L|]. split; [rewrite ends_app, EH; reflexivity|].
    exists q. split; [reflexivity|exact P].
  - exists ids, q, os. split; [rewrite <- (app_nil_r q); apply sofar_obs; [exact S|reflexivity|reflexivity|sil]|]. split; [|split; [cbn; rewrite ends_app, EH; reflexivity|intros v E; injection E as <-; reflexivity]].
    specialize (P []). rewrite app_nil_r, (range_nil ep last L) in P. rewrite R, P. unfold after. cbn. rewrite !app_nil_r. reflexivity.
Qed.
Lemma linv_resume n me t p a d g rs h : linv n p (snd d) rs h -> aresume me t p a d = Some g -> lgo n (rs ++ [Ok a]) h g.
Proof.
  intros (ids & q & os & S & P) H. destruct p as [| | |n' k|n' root k|n' root ep last got k| | | | | | | | | | | | | |r]; try contradiction; try (destruct k; try contradiction).
  - destruct P as (-> & -> & -> & -> & -> & EH). destruct a; try discriminate H. cbn [aresume] in H. injection H as <-. apply lgo_then. unfold with_info.
    assert (S1 : forall an, sofar [] [QInfo n] [] (snd d) (h ++ [OAnswer t (QInfo n) an])). { intros an. change [QInfo n] with ([QInfo n] ++ [] : list query). apply sofar_obs; [exact S|reflexivity|reflexivity|sil]. }
    assert (E1 : forall an, ends (h ++ [OAnswer t (QInfo n) an]) = []) by (intros an; rewrite ends_app, EH; reflexivity).
    destruct (new_node cls) as [c|e] eqn:NN.
    2: { exists [], [QInfo n], []. split; [change [QInfo n] with ([QInfo n] ++ [] : list query); apply sofar_obs; [apply S1|reflexivity|reflexivity|sil]|]. cbn [List.app snd stop]. unfold plan_load. rewrite NN. split; [reflexivity|]. split; [rewrite ends_app, E1; reflexivity|discriminate]. }
    cbn zeta. set (o := mkO n 0 c basic generic specific listening None). rewrite (surjective_pairing (put t o d)). destruct (supports c 96) eqn:SU.
    + apply (lgo_then n _ _ [snd (put t o d)] (fst (put t o d), [OQuery t (QCount n)], PCount n (length (snd d)) KLoad)). unfold lgo. cbn [fst snd].
      exists [length (snd d)], [QInfo n; QCount n], [o]. split; [apply (sofar_obs _ [QInfo n] _ _ _ [OQuery t (QCount n)] [QCount n]); [apply (sofar_put [] [QInfo n] [] t o d), S1|reflexivity|reflexivity|sil]|].
      split; [reflexivity|]. split; [reflexivity|]. split; [rewrite !ends_app, EH; reflexivity|]. exists [QInfo n]. split; [reflexivity|]. intros rs'. cbn [List.app]. unfold plan_load. rewrite NN, SU, !after_after. reflexivity.
    + apply lgo_then. unfold lgo. cbn [loaded stop fst snd]. exists [length (snd d)], [QInfo n], [o]. split; [change [QInfo n] with ([QInfo n] ++ [] : list query) at 1; apply sofar_obs; [apply (sofar_put [] [QInfo n] [] t o d), S1|reflexivity|reflexivity|sil]|].
      split; [cbn [List.app]; unfold plan_load; rewrite NN, SU; reflexivity|]. split; [rewrite !ends_app, EH; reflexivity|]. intros v E. injection E as <-. reflexivity.
  - destruct P as (-> & -> & EH & q' & -> & P). destruct a; try discriminate H. cbn [aresume] in H. injection H as <-. apply lgo_then. apply (caps_lgo n t me root 1 n0 [root] (q' ++ [QCount n]) os).
    + rewrite <- (app_nil_r (q' ++ _)). apply sofar_obs; [exact S|reflexivity|reflexivity|sil].
    + reflexivity.
    + discriminate.
    + rewrite ends_app, EH. reflexivity.
    + intros rs'. rewrite <- app_assoc. cbn [List.app]. rewrite P, after_after, app_nil_r, range_upto. reflexivity.
  - destruct P as (-> & -> & R & NI & L & EH & q' & -> & P). destruct a; try discriminate H. cbn [aresume] in H. injection H as <-. apply lgo_then. unfold with_cap.
    assert (S1 : sofar got (q' ++ [QCap n ep]) os (snd d) (h ++ [OAnswer t (QCap n ep) (ACap cls generic specific)])). { rewrite <- (app_nil_r (q' ++ _)). apply sofar_obs; [exact S|reflexivity|reflexivity|sil]. }
    assert (P1 : forall rs', plan_load n root ((rs ++ [Ok (ACap cls generic specific)]) ++ rs') = after q' os (plan_endpoints n root (ep :: range (ep + 1) last) (Ok (ACap cls generic specific) :: rs'))).
    { intros rs'. rewrite <- app_assoc. cbn [List.app]. rewrite P, (range_cons ep last L). reflexivity. }
    destruct (new_node cls) as [c|e] eqn:NN.
    2: { exists got, (q' ++ [QCap n ep]), os. split; [rewrite <- (app_nil_r (q' ++ _)); apply sofar_obs; [exact S1|reflexivity|reflexivity|sil]|]. cbn [snd stop]. specialize (P1 []). rewrite app_nil_r in P1. rewrite R, P1. cbn [plan_endpoints]. rewrite NN. unfold after. cbn. rewrite app_nil_r. split; [reflexivity|]. split; [rewrite !ends_app, EH; reflexivity|discriminate]. }
    cbn zeta. set (o := mkO n ep c 0 generic specific false (Some root)). rewrite (surjective_pairing (put t o d)). apply lgo_then.
    apply (caps_lgo n t me root (ep + 1) last (got ++ [length (snd d)]) (q' ++ [QCap n ep]) (os ++ [o])).
    + apply sofar_put. exact S1.
    + destruct got; [contradiction|exact R].
    + destruct got; discriminate.
    + rewrite !ends_app, EH. reflexivity.
    + intros rs'. rewrite P1. cbn [plan_endpoints]. rewrite NN, !after_after. cbn [List.app]. rewrite !app_nil_r. reflexivity.
  - rewrite ended_stays in H. discriminate.
Qed.
Lemma linv_raise n p objs rs h t e : linv n p objs rs h -> (forall r, p <> PEnd r) -> linv n (PEnd (Err e)) objs (rs ++ [Err e]) (h ++ [ODone t (Err e)]).
Proof.
  intros (ids & q & os & S & P) NE. assert (S1 : sofar ids q os objs (h ++ [ODone t (Err e)])) by (rewrite <- (app_nil_r q); apply sofar_obs; [exact S|reflexivity|reflexivity|sil]).
  exists ids, q, os. split; [exact S1|]. rewrite ends_app. destruct p as [| | |n' k|n' root k|n' root ep last got k| | | | | | | | | | | | | |r]; try contradiction; try (destruct k; try contradiction); [..|destruct (NE r); reflexivity].
  - destruct P as (-> & -> & -> & -> & -> & ->). split; [reflexivity|]. split; [reflexivity|discriminate].
  - destruct P as (-> & -> & -> & q' & -> & P). split; [|split; [reflexivity|discriminate]]. cbn [hd]. rewrite P. unfold after. cbn. rewrite !app_nil_r. reflexivity.
  - destruct P as (-> & -> & R & NI & L & -> & q' & -> & P). split; [|split; [reflexivity|discriminate]]. rewrite R, P, (range_cons ep last L). unfold after. cbn. rewrite !app_nil_r. reflexivity.
Qed.
Lemma linv_grow n p objs x rs h : linv n p objs rs h -> linv n p (objs ++ x) rs h.
Proof. intros (ids & q & os & S & P). exists ids, q, os. split; [apply sofar_grow; exact S|exact P]. Qed.
Lemma linv_exec n s0 c p t es s b rs h : aexec s0 es s b -> nth_error (a_tasks s0) t = Some (mkAT c p) -> linv n p (a_objs s0) rs h ->
  exists p', nth_error (a_tasks s) t = Some (mkAT c p') /\ linv n p' (a_objs s) (rs ++ results t es) (h ++ own t b).
Proof.
  induction 1 as [|es s b e s' os X IH S]; intros N M; [exists p; split; [exact N|]; cbn; rewrite !app_nil_r; exact M|].
  destruct (IH N M) as (p1 & N1 & M1). rewrite own_app. unfold results. rewrite flat_map_app. fold (results t es). apply astep_case in S. pose proof (proj1 (follows_case _ _ _ _ S)) as (x & GX).
  destruct S as [z|c' d os q E|u c' q a d os q' N' E|u c' q xx N' NE]; cbn [flat_map a_tasks a_objs] in *.
  - rewrite !app_nil_r. exists p1. auto.
  - rewrite nth_snoc'. destruct (Nat.eqb_spec t (length (a_tasks s))) as [->|NT]; [exfalso; assert (Q : nth_error (a_tasks s) (length (a_tasks s)) = None) by (apply nth_error_None; lia); congruence|].
    pose proof (by_begin (a_me s) (length (a_tasks s)) c' (tabs_of s)) as BM. rewrite E in BM. unfold by_t in BM. cbn in BM. rewrite own_cons. cbn [who]. destruct (Nat.eqb_spec (length (a_tasks s)) t); [congruence|]. rewrite (own_other t _ os BM), !app_nil_r by congruence. exists p1. split; [exact N1|]. rewrite GX. apply linv_grow. exact M1.
  - pose proof (by_resume _ _ _ _ _ _ E) as BM. unfold by_t in BM. cbn in BM. rewrite (nth_upd' _ _ _ _ N'). destruct (Nat.eqb_spec t u) as [->|NU].
    + rewrite N1 in N'. injection N' as <- <-. rewrite Nat.eqb_refl. cbn [List.app]. exists q'. split; [reflexivity|]. rewrite (own_mine u os BM), !app_assoc. exact (linv_resume n (a_me s) u p1 a (tabs_of s) (d, os, q') _ _ M1 E).
    + destruct (Nat.eqb_spec u t); [congruence|]. rewrite (own_other t u os BM), !app_nil_r by congruence. exists p1. split; [exact N1|]. rewrite GX. apply linv_grow. exact M1.
  - rewrite (nth_upd' _ _ _ _ N'). destruct (Nat.eqb_spec t u) as [->|NU].
    + rewrite N1 in N'. injection N' as <- <-. rewrite own_cons. cbn [who]. rewrite Nat.eqb_refl. cbn [List.app]. exists (PEnd (Err xx)). split; [reflexivity|]. rewrite !app_assoc. apply (linv_raise n p1); assumption.
    + rewrite own_cons. cbn [who]. destruct (Nat.eqb_spec u t); [congruence|]. rewrite !app_nil_r. exists p1. auto.
Qed.
Lemma linv_loads n p objs rs h : linv n p objs rs h -> loads_as n rs objs h.
Proof.
  intros (ids & q & os & [A B C D E] & P). exists ids. destruct p as [| | |n' k|n' root k|n' root ep last got k| | | | | | | | | | | | | |r]; try contradiction; try (destruct k; try contradiction).
  - destruct P as (-> & -> & -> & -> & -> & EH). cbn. auto 7.
  - destruct P as (-> & -> & EH & q' & -> & P). specialize (P []). rewrite app_nil_r in P. cbn [hd]. rewrite P. unfold after. cbn. rewrite !app_nil_r. auto 7.
  - destruct P as (-> & -> & R & NI & L & EH & q' & -> & P). specialize (P []). rewrite app_nil_r in P. rewrite R, P, (range_cons ep last L). unfold after. cbn. rewrite !app_nil_r. auto 7.
  - destruct P as (-> & EH & V). cbn. rewrite EH. split; [exact A|]. split; [exact B|]. split; [exact C|]. split; [exact D|]. split; [|exact E]. destruct r as [v|e]; [rewrite (V v eq_refl); reflexivity|reflexivity].
Qed.
Lemma load_alone s1 n s2 os es s b t : astep s1 (ECall (ALoad n)) = Some (s2, os) -> aexec s2 es s b -> t = length (a_tasks s1) ->
  exists tr, deeds t (os ++ b) = OCalled t (ALoad n) :: tr /\ if n =? a_me s1 then tr = [ODone t (Ok (RNodes []))] else loads_as n (results t es) (a_objs s) tr.
Proof.
  intros S X ->. set (t := length (a_tasks s1)) in *. destruct (call_step _ _ _ _ S) as (d & os1 & p & E & -> & N & F). fold t in E, N. exists (os1 ++ own t b).
  assert (BM : Forall (mine t) os1). { pose proof (by_begin (a_me s1) t (ALoad n) (tabs_of s1)) as BM. rewrite E in BM. exact BM. }
  split; [rewrite deeds_own, own_app, own_cons; cbn [who]; fold t; rewrite Nat.eqb_refl, (own_mine t os1 BM); reflexivity|].
  cbn [astart] in E. destruct (n =? a_me s1).
  - injection E as <- <- <-. assert (Q : own t b = []); [|rewrite Q; reflexivity]. clear - X N. revert N. induction X as [|es s b e s' os X IH S]; intros N; [reflexivity|]. rewrite own_app, (IH N). cbn [List.app].
    assert (N1 : nth_error (a_tasks s) t = Some (mkAT (ALoad n) (PEnd (Ok (RNodes []))))).
    { clear - X N. revert N. induction X as [|es s b e s' os X IH S]; intros N; [exact N|]. specialize (IH N). apply astep_case in S. destruct S as [z|c' d os q E|u c' q a d os q' N' E|u c' q xx N' NE]; cbn [a_tasks].
      - exact IH.
      - rewrite nth_snoc'. destruct (Nat.eqb_spec t (length (a_tasks s))) as [EQ|NT]; [|exact IH]. assert (Q : nth_error (a_tasks s) t = None) by (apply nth_error_None; lia). congruence.
      - rewrite (nth_upd' _ _ _ _ N'). destruct (Nat.eqb_spec t u) as [<-|NU]; [|exact IH]. rewrite IH in N'. injection N' as <- <-. rewrite ended_stays in E. discriminate.
      - rewrite (nth_upd' _ _ _ _ N'). destruct (Nat.eqb_spec t u) as [<-|NU]; [|exact IH]. rewrite IH in N'. injection N' as <- <-. destruct (NE _ eq_refl). }
    apply astep_case in S. destruct S as [z|c' d os q E|u c' q a d os q' N' E|u c' q xx N' NE].
    + reflexivity.
    + rewrite own_cons. cbn [who]. pose proof (by_begin (a_me s) (length (a_tasks s)) c' (tabs_of s)) as BM. rewrite E in BM. assert (NT : length (a_tasks s) <> t). { intros Q. assert (Q' : nth_error (a_tasks s) t = None) by (apply nth_error_None; lia). congruence. }
      destruct (Nat.eqb_spec (length (a_tasks s)) t); [contradiction|]. exact (own_other t _ os BM NT).
    + destruct (Nat.eqb_spec t u) as [<-|NU]; [rewrite N1 in N'; injection N' as <- <-; rewrite ended_stays in E; discriminate|]. apply (own_other t u); [exact (by_resume _ _ _ _ _ _ E)|congruence].
    + rewrite own_cons. cbn [who]. destruct (Nat.eqb_spec u t) as [->|NU]; [|reflexivity]. rewrite N1 in N'. injection N' as <- <-. destruct (NE _ eq_refl).
  - injection E as <- <- <-. apply linv_loads with (p := match nth_error (a_tasks s) t with Some x => at_pc x | None => PList end).
    assert (I0 : linv n (PInfo n KLoad) (a_objs s2) [] [OQuery t (QInfo n)]).
    { exists [], [QInfo n], []. split; [constructor; cbn; auto; [constructor|sil]|]. auto 7. }
    destruct (linv_exec n s2 _ _ t es s b [] _ X N I0) as (p' & N' & I'). rewrite N'. exact I'.
Qed.
(** ** a load that nothing interferes with *)
Lemma unplayed k tr x : (forall t i, ~ In (OPut t k i) tr) -> (forall t, ~ In (ODel t k) tr) -> play k tr x = x.
Proof.
  revert x. induction tr as [|o tr IH]; intros x P D; [reflexivity|]. assert (IH' : forall y, play k tr y = y) by (intros y; apply IH; [intros t i J; exact (P t i (or_intror J))|intros t J; exact (D t (or_intror J))]).
  destruct o; cbn [play]; try apply IH'.
  - rewrite key_eqb_neq; [apply IH'|]. intros <-. exact (D t (or_introl eq_refl)).
  - rewrite key_eqb_neq; [apply IH'|]. intros <-. exact (P t o (or_introl eq_refl)).
Qed.
Lemma play_own k t tr : (forall u i, In (OPut u k i) tr -> u = t) -> (forall u, In (ODel u k) tr -> u = t) -> forall x, play k tr x = play k (own t tr) x.
Proof.
  induction tr as [|o tr IH]; intros P D x; [reflexivity|]. assert (IH' : forall y, play k tr y = play k (own t tr) y) by (apply IH; [intros u i J; exact (P u i (or_intror J))|intros u J; exact (D u (or_intror J))]).
  rewrite own_cons. destruct (Nat.eqb_spec (who o) t) as [E|NE]; [destruct o; cbn [play]; apply IH'|]. destruct o; cbn [play who] in *; try apply IH'.
  - rewrite key_eqb_neq; [apply IH'|]. intros <-. apply NE, (D t0). left. reflexivity.
  - rewrite key_eqb_neq; [apply IH'|]. intros <-. apply NE, (P t0 o). left. reflexivity.
Qed.
Lemma play_silent k tr x : silent tr -> play k tr x = fold_left (fun y e => if key_eqb k (fst e) then Some (snd e) else y) (stored tr) x.
Proof.
  revert x. induction tr as [|o tr IH]; intros x S; [reflexivity|]. assert (S' : silent tr) by (intros o' J; exact (S o' (or_intror J))). pose proof (S o (or_introl eq_refl)) as SO.
  destruct o; try contradiction; cbn [play]; rewrite IH by exact S'; reflexivity.
Qed.
Lemma fold_last k (l : list (key * nat)) : NoDup (map fst l) -> forall x, (forall i, In (k, i) l -> fold_left (fun y e => if key_eqb k (fst e) then Some (snd e) else y) l x = Some i) /\
  (~ In k (map fst l) -> fold_left (fun y e => if key_eqb k (fst e) then Some (snd e) else y) l x = x).
Proof.
  induction l as [|[k0 i0] l IH]; intros ND x; [split; [intros i []|reflexivity]|]. cbn [map fst] in ND. inversion ND as [|? ? NI ND']; subst. cbn [fold_left fst snd]. split.
  - intros i [J|J].
    + injection J as -> ->. rewrite key_eqb_refl. apply (IH ND'). exact NI.
    + apply (IH ND'). exact J.
  - intros NJ. cbn [map fst In] in NJ. rewrite key_eqb_neq by (intros ->; tauto). apply (IH ND'). tauto.
Qed.
Lemma keys_endpoints n root eps : forall rs, exists m, map o_key (makes (plan_endpoints n root eps rs)) = firstn m (map (pair n) eps).
Proof.
  induction eps as [|e eps IH]; intros rs; [exists 0%nat; reflexivity|]. cbn [plan_endpoints]. destruct rs as [|[a|x] rs]; [exists 0%nat; reflexivity| |exists 0%nat; reflexivity].
  destruct a; try (exists 0%nat; reflexivity). destruct (new_node cls) as [c|x]; [|exists 0%nat; reflexivity]. destruct (IH rs) as (m & E). exists (S m). unfold after. cbn. rewrite E. reflexivity.
Qed.
Lemma nodup_firstn {A} m (l : list A) : NoDup l -> NoDup (firstn m l).
Proof. intros N. rewrite <- (firstn_skipn m l) in N. revert N. generalize (firstn m l) (skipn m l). intros a b. induction a as [|x a IH]; cbn; intros N; [constructor|]. inversion N; subst. constructor; [intros J; apply H1, in_or_app; auto|auto]. Qed.
Lemma in_firstn {A} m (l : list A) x : In x (firstn m l) -> In x l.
Proof. intros J. rewrite <- (firstn_skipn m l). apply in_or_app. auto. Qed.
Lemma upto_in c e : In e (upto c) <-> 1 <= e <= c.
Proof. unfold upto. rewrite in_map_iff. split; [intros (i & <- & J); apply in_seq in J; lia|]. intros L. exists (Z.to_nat e). split; [lia|]. apply in_seq. lia. Qed.
Lemma keys_load n root rs : NoDup (map o_key (makes (plan_load n root rs))) /\ forall k, In k (map o_key (makes (plan_load n root rs))) -> fst k = n.
Proof.
  unfold plan_load. assert (Z0 : forall q o, NoDup (map o_key (makes (mkPlan q [] o))) /\ forall k, In k (map o_key (makes (mkPlan q [] o))) -> fst k = n) by (intros q o; split; [constructor|intros k []]).
  destruct rs as [|[a|x] rs]; [apply Z0| |apply Z0]. destruct a; try apply Z0. destruct (new_node cls) as [c|x]; [|apply Z0].
  assert (Z1 : forall m eps, NoDup ((n, 0) :: firstn m (map (pair n) (upto eps))) /\ forall k, In k ((n, 0) :: firstn m (map (pair n) (upto eps))) -> fst k = n).
  { intros m eps. split.
    - constructor; [intros J; apply in_firstn, in_map_iff in J as (e & E & J); injection E as ->; apply upto_in in J; lia|]. apply nodup_firstn. apply FinFun.Injective_map_NoDup; [intros y z E; injection E as ->; reflexivity|].
      unfold upto. apply FinFun.Injective_map_NoDup; [intros y z E; lia|]. apply seq_NoDup.
    - intros k [<-|J]; [reflexivity|]. apply in_firstn, in_map_iff in J as (e & <- & _). reflexivity. }
  destruct (supports c 96); [|exact (Z1 0%nat 0)]. destruct rs as [|[a|x] rs]; [exact (Z1 0%nat 0)| |exact (Z1 0%nat 0)]. destruct a as [| |k| | |]; try exact (Z1 0%nat 0).
  destruct (keys_endpoints n root (upto k) rs) as (m & E). unfold after. cbn [makes List.app map]. rewrite E. apply Z1.
Qed.
(** as long as no other task writes or removes entries of this node, the table holds what was stored *)
Lemma load_known s1 n s2 os es s b t : astep s1 (ECall (ALoad n)) = Some (s2, os) -> aexec s2 es s b -> t = length (a_tasks s1) ->
  (forall u e i, In (OPut u (n, e) i) b -> u = t) -> (forall u e, In (ODel u (n, e)) b -> u = t) ->
  (forall k i, In (k, i) (stored (deeds t (os ++ b))) -> entry s k = Some i) /\
  (forall e, ~ In (n, e) (map fst (stored (deeds t (os ++ b)))) -> entry s (n, e) = entry s1 (n, e)).
Proof.
  intros S X T P D. destruct (load_alone _ _ _ _ _ _ _ _ S X T) as (tr & DE & L). rewrite DE.
  assert (SI : silent tr). { destruct (n =? a_me s1); [subst tr; intros o [<-|[]]; exact I|]. destruct L as (ids & L). apply L. }
  assert (ST : NoDup (map fst (stored tr)) /\ forall k i, In (k, i) (stored tr) -> fst k = n).
  { destruct (n =? a_me s1); [subst tr; split; [constructor|intros k i []]|]. destruct L as (ids & _ & _ & MO & -> & _). destruct (keys_load n (hd 0%nat ids) (results t es)) as [K1 K2]. split.
    - pose proof (map_len _ _ _ MO) as EL. rewrite <- (map_length o_key) in EL. revert K1 EL. generalize (map o_key (makes (plan_load n (hd 0%nat ids) (results t es)))). clear. intros l. revert ids. induction l as [|x l IH]; intros [|i ids]; cbn; try discriminate; [constructor|].
      intros N E. inversion N; subst. injection E as E. constructor; [|apply IH; assumption]. intros J. apply H1. apply in_map_iff in J as ([y j] & <- & J). exact (in_combine_l _ _ _ _ J).
    - intros k i J. apply K2. exact (in_combine_l _ _ _ _ J). }
  assert (EP : forall k x, fst k = n -> play k (os ++ b) x = fold_left (fun y e => if key_eqb k (fst e) then Some (snd e) else y) (stored tr) x).
  { intros [k1 k2] x E. cbn in E. subst k1. rewrite (play_own (n, k2) t).
    - change (own t (os ++ b)) with (deeds t (os ++ b)). rewrite DE. cbn [play]. apply play_silent. exact SI.
    - intros u i J. apply in_app_or in J as [J|J]; [|exact (P u k2 i J)]. destruct (call_step _ _ _ _ S) as (d & os1 & p & E & -> & _). destruct J as [J|J]; [discriminate|]. cbn [astart] in E. destruct (n =? a_me s1); injection E as _ <- _; destruct J as [J|[]]; discriminate.
    - intros u J. apply in_app_or in J as [J|J]; [|exact (D u k2 J)]. destruct (call_step _ _ _ _ S) as (d & os1 & p & E & -> & _). destruct J as [J|J]; [discriminate|]. cbn [astart] in E. destruct (n =? a_me s1); injection E as _ <- _; destruct J as [J|[]]; discriminate. }
  assert (TB : forall k, entry s k = play k (os ++ b) (entry s1 k)).
  { intros k. apply (table_trace s1 (ECall (ALoad n) :: es)). change (ECall (ALoad n) :: es) with ([ECall (ALoad n)] ++ es). eapply aexec_app; [|exact X]. exact (AX_snoc s1 [] s1 [] _ _ _ (AX_nil s1) S). }
  change (stored (OCalled t (ALoad n) :: tr)) with (stored tr). split.
  - intros k i J. rewrite TB, EP by (apply ST with i; exact J). apply fold_last; [apply ST|exact J].
  - intros e NJ. rewrite TB, EP by reflexivity. apply fold_last; [apply ST|exact NJ].
Qed.
