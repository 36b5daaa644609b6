(** Proofs about what the node objects of the application show. *)
From Coq Require Import String ZArith List Bool Lia.
From Verif Require Import Py Schema Registry Codec Waiter Conn ConnLemmas NodeM AppM SpecApp AppProofs SpecAppShow.
Import ListNotations.
Open Scope list_scope.
Open Scope string_scope.
Open Scope list_scope.
Open Scope Z_scope.

Definition calm (o : aobs) : bool := match o with OPut _ _ _ | ODel _ _ | OAnswer _ _ _ => false | _ => true end.
(** the root object a suspended task works for *)
Definition root_at (p : apc) : option (Z * nat * Z) := match p with PCount n root _ => Some (n, root, 1) | PCap n root ep _ _ _ => Some (n, root, ep) | _ => None end.
Definition quiet (d : tabs) (g : ago) : Prop := fst (fst g) = d /\ forallb calm (snd (fst g)) = true.
Definition rootless (g : ago) : Prop := root_at (snd g) = None.
Ltac qt := split; [split; reflexivity|reflexivity].
Lemma q_announce t new d : quiet d (announce t new d) /\ rootless (announce t new d). Proof. destruct new; qt. Qed.
Lemma q_update me t rest : forall new d, quiet d (update_loop me t rest new d) /\ rootless (update_loop me t rest new d).
Proof. induction rest as [|n rest IH]; intros new d; cbn [update_loop]; [apply q_announce|]. destruct (dmem _ _ _); [apply IH|]. destruct (n =? me); [apply IH|qt]. Qed.
Lemma q_start me t rest : forall d, quiet d (start_loop me t rest d) /\ rootless (start_loop me t rest d).
Proof. induction rest as [|n rest IH]; intros d; cbn [start_loop]; [qt|]. destruct (n =? me); [apply IH|qt]. Qed.
Lemma q_loaded me t k nodes d : quiet d (loaded me t k nodes d) /\ rootless (loaded me t k nodes d).
Proof. destruct k; [qt|apply q_update|apply q_start]. Qed.
Lemma q_caps me t n root ep last got k d : quiet d (caps me t n root ep last got k d) /\ (rootless (caps me t n root ep last got k d) \/ root_at (snd (caps me t n root ep last got k d)) = Some (n, root, ep)).
Proof. unfold caps. destruct (ep <=? last); [split; [split; reflexivity|right; reflexivity]|]. destruct (q_loaded me t k got d). auto. Qed.
Lemma q_each t rest size d : quiet d (start_each t rest size d) /\ rootless (start_each t rest size d).
Proof. unfold start_each. destruct (Nat.eqb _ _); [destruct rest|]; qt. Qed.
Lemma q_begin me t c d : quiet d (astart me t c d) /\ rootless (astart me t c d).
Proof.
  destruct c; cbn [astart]; try qt.
  - destruct (n =? me); qt.
  - unfold start_message. destruct (match ep with Some _ => _ | None => _ end); [qt|]. destruct (root =? me); qt.
  - unfold start_unhandled. destruct (is_msg _ _); [|qt]. destruct (is_msg _ _); [qt|]. destruct (is_msg _ _); [qt|]. destruct (getattr m "command"); qt.
Qed.

(** what a resumption does to the table *)
Inductive eff (t : nat) (p : apc) (d : tabs) : tabs -> list aobs -> apc -> Prop :=
| E_plain os p' : forallb calm os = true -> root_at p' = None -> eff t p d d os p'
| E_ans q a os p' : useless a -> forallb calm os = true -> root_at p' = None \/ (exists n root k, p = PCount n root k /\ root_at p' = Some (n, root, 1)) -> eff t p d d (OAnswer t q a :: os) p'
| E_del os0 k os p' : os0 = [] \/ (exists l, os0 = [OAnswer t QNodes (ANodes l)]) -> forallb calm os = true -> root_at p' = None -> eff t p d (ddel key_eqb k (fst d), snd d) (os0 ++ ODel t k :: os) p'
| E_root n k cls b g sp l c os p' : p = PInfo n k -> new_node cls = Ok c -> forallb calm os = true -> root_at p' = None \/ root_at p' = Some (n, length (snd d), 1) ->
    eff t p d (dset key_eqb (n, 0) (length (snd d)) (fst d), snd d ++ [mkO n 0 c b g sp l None]) (OAnswer t (QInfo n) (AInfo cls b g sp l) :: OPut t (n, 0) (length (snd d)) :: os) p'
| E_ep n root ep cls g sp c os p' : root_at p = Some (n, root, ep) -> new_node cls = Ok c -> forallb calm os = true -> root_at p' = None \/ root_at p' = Some (n, root, ep + 1) ->
    eff t p d (dset key_eqb (n, ep) (length (snd d)) (fst d), snd d ++ [mkO n ep c 0 g sp false (Some root)]) (OAnswer t (QCap n ep) (ACap cls g sp) :: OPut t (n, ep) (length (snd d)) :: os) p'.
Lemma eff_quiet t p d g : quiet d g -> rootless g -> eff t p d (fst (fst g)) (snd (fst g)) (snd g).
Proof. intros [-> Q] R. apply E_plain; assumption. Qed.
Lemma eff_after t p d q a g : useless a -> quiet d g -> rootless g -> eff t p d (fst (fst (obs_then [OAnswer t q a] g))) (snd (fst (obs_then [OAnswer t q a] g))) (snd (obs_then [OAnswer t q a] g)).
Proof. destruct g as [[d' os] p']. intros U [E Q] R. cbn in *. subst d'. apply E_ans; auto. Qed.
Lemma eff_remove me t p rest all l d os0 : os0 = [] \/ os0 = [OAnswer t QNodes (ANodes l)] ->
  eff t p d (fst (fst (obs_then os0 (remove me t rest all l d)))) (snd (fst (obs_then os0 (remove me t rest all l d)))) (snd (obs_then os0 (remove me t rest all l d))).
Proof.
  intros O. assert (K : forall g, quiet d g -> rootless g -> eff t p d (fst (fst (obs_then os0 g))) (snd (fst (obs_then os0 g))) (snd (obs_then os0 g))).
  { intros [[d' os] p'] Q R. destruct O as [->| ->]; [exact (eff_quiet t p d (d', os, p') Q R)|apply (eff_after t p d QNodes (ANodes l) (d', os, p')); [exact I|exact Q|exact R]]. }
  destruct rest as [|k rest]; cbn [remove].
  - destruct all; [destruct (q_update me t l [] d); apply K; assumption|]. apply K; [split; reflexivity|reflexivity].
  - destruct (dmem _ _ _); [|apply K; [split; reflexivity|reflexivity]]. cbn. apply E_del; [|reflexivity|reflexivity]. destruct O; eauto.
Qed.
Lemma eff_resume me t p a d d' os p' : aresume me t p a d = Some (d', os, p') -> eff t p d d' os p'.
Proof.
  assert (F : forall g, eff t p d (fst (fst g)) (snd (fst g)) (snd g) -> Some g = Some (d', os, p') -> eff t p d d' os p') by (intros g H E; injection E as ->; exact H).
  intros H. destruct p, a; try discriminate; cbn [aresume] in H; try (revert H; apply F; clear F);
    try (apply eff_after; [exact I|split; reflexivity|reflexivity]); try (apply E_plain; reflexivity).
  - unfold with_list. apply eff_remove. auto.
  - assert (R := eff_remove me t (PRemoved rest all l) rest all l d [] (or_introl eq_refl)). destruct (remove me t rest all l d) as [[d2 os2] p2]. exact R.
  - destruct (q_update me t l [] d). apply eff_quiet; assumption.
  - unfold with_info. destruct (new_node cls) as [c|e] eqn:N; [|cbn; apply E_ans; [exists e; exact N|reflexivity|left; reflexivity]].
    cbn [put o_key o_root o_ep]. destruct (supports c 96).
    + cbn. eapply E_root; [reflexivity|exact N|reflexivity|right; reflexivity].
    + destruct (q_loaded me t k [length (snd d)] (dset key_eqb (n, 0) (length (snd d)) (fst d), snd d ++ [mkO n 0 c basic generic specific listening None])) as [[Q1 Q2] R].
      destruct (loaded _ _ _ _ _) as [[d2 os2] p2]. cbn in *. subst d2. eapply E_root; [reflexivity|exact N|exact Q2|left; exact R].
  - destruct (q_caps me t n root 1 n0 [root] k d) as [[Q1 Q2] R]. destruct (caps _ _ _ _ _ _ _ _ _) as [[d2 os2] p2]. cbn in *. subst d2. apply E_ans; [exact I|exact Q2|]. destruct R as [R|R]; [left; exact R|right; eauto].
  - unfold with_cap. destruct (new_node cls) as [c|e] eqn:N; [|cbn; apply E_ans; [exists e; exact N|reflexivity|left; reflexivity]].
    cbn [put o_key o_root o_ep]. destruct (q_caps me t n root (ep + 1) last (got ++ [length (snd d)]) k (dset key_eqb (n, ep) (length (snd d)) (fst d), snd d ++ [mkO n ep c 0 generic specific false (Some root)])) as [[Q1 Q2] R].
    destruct (caps _ _ _ _ _ _ _ _ _) as [[d2 os2] p2]. cbn in *. subst d2. eapply E_ep; [reflexivity|exact N|exact Q2|exact R].
  - destruct new; apply eff_quiet; (split; reflexivity) || reflexivity.
  - destruct rest; apply eff_quiet; (split; reflexivity) || reflexivity.
  - destruct (q_start me t l d). apply eff_after; [exact I|assumption|assumption].
  - destruct (q_each t (map snd (fst d)) (length (fst d)) d). apply eff_quiet; assumption.
  - destruct (q_each t rest size d). apply eff_quiet; assumption.
  - destruct (int_is _ _); [destruct (int_is _ _)|]; revert H; apply F; apply E_plain; reflexivity.
Qed.

(** ** The invariant *)
Definition qof (k : key) : query := if snd k =? 0 then QInfo (fst k) else QCap (fst k) (snd k).
Definition rooted (os : list nobj) (tr : list aobs) (t : nat) (n : Z) (i : nat) : Prop :=
  exists x y cls b g sp l c, tr = x ++ OAnswer t (QInfo n) (AInfo cls b g sp l) :: OPut t (n, 0) i :: y /\ new_node cls = Ok c /\ nth_error os i = Some (mkO n 0 c b g sp l None).
Definition made (os : list nobj) (x : list aobs) (t : nat) (k : key) (a : answer) (o : nobj) : Prop :=
  match a with
  | AInfo cls b g sp l => snd k = 0 /\ exists c, new_node cls = Ok c /\ o = mkO (fst k) 0 c b g sp l None
  | ACap cls g sp => 1 <= snd k /\ exists c p, new_node cls = Ok c /\ o = mkO (fst k) (snd k) c 0 g sp false (Some p) /\ rooted os x t (fst k) p
  | _ => False
  end.
Definition written (d : tabs) (tr : list aobs) : Prop := forall k i, kget k (fst d) = Some i -> exists x t a o, last_put tr x t (qof k) a k i /\ nth_error (snd d) i = Some o /\ made (snd d) x t k a o.
Definition working (ts : list atask) (d : tabs) (tr : list aobs) : Prop := forall t c p n i ep, nth_error ts t = Some (mkAT c p) -> root_at p = Some (n, i, ep) -> 1 <= ep /\ rooted (snd d) tr t n i.
Lemma nth_more {A} (l : list A) x i y : nth_error l i = Some y -> nth_error (l ++ x) i = Some y.
Proof. intros H. rewrite nth_error_app1; [exact H|]. apply nth_error_Some. congruence. Qed.
Lemma rooted_more os tr t n i os' x : rooted os tr t n i -> rooted (os ++ os') (tr ++ x) t n i.
Proof. intros (a & b & cls & bb & g & sp & l & c & -> & N & O). exists a, (b ++ x), cls, bb, g, sp, l, c. split; [rewrite <- app_assoc; reflexivity|]. split; [exact N|]. apply nth_more. exact O. Qed.
Lemma rooted_os os tr t n i os' : rooted os tr t n i -> rooted (os ++ os') tr t n i.
Proof. intros H. rewrite <- (app_nil_r tr). apply rooted_more. exact H. Qed.
Lemma rooted_tr os tr t n i x : rooted os tr t n i -> rooted os (tr ++ x) t n i.
Proof. intros H. rewrite <- (app_nil_r os). apply rooted_more. exact H. Qed.
Lemma made_more os os' x t k a o : made os x t k a o -> made (os ++ os') x t k a o.
Proof. destruct a; cbn; try tauto. intros (E & c & p & N & O & R). split; [exact E|]. exists c, p. auto using rooted_os. Qed.
Lemma put_more tr x t q a k i os : last_put tr x t q a k i -> (forall t' a', In (OAnswer t' q a') os -> useless a') -> (forall t' j, ~ In (OPut t' k j) os) -> (forall t', ~ In (ODel t' k) os) -> last_put (tr ++ os) x t q a k i.
Proof.
  intros (y & -> & A & B & C) A' B' C'. exists (y ++ os). split; [rewrite <- app_assoc; reflexivity|]. split; [intros t' a' J; apply in_app_or in J as [J|J]; eauto|].
  split; [intros t' j J|intros t' J]; apply in_app_or in J as [J|J]; [exact (B _ _ J)|exact (B' _ _ J)|exact (C _ J)|exact (C' _ J)].
Qed.
Lemma calm_none os o : forallb calm os = true -> calm o = false -> ~ In o os.
Proof. intros H N J. rewrite forallb_forall in H. rewrite (H o J) in N. discriminate. Qed.
Ltac cn C := match goal with J : In ?o ?os |- _ => exfalso; exact (calm_none os o C eq_refl J) | |- ~ In ?o ?os => exact (calm_none os o C eq_refl) end.
Lemma put_calm tr x t q a k i os : last_put tr x t q a k i -> forallb calm os = true -> last_put (tr ++ os) x t q a k i.
Proof. intros H C. apply put_more; [exact H| | |]; intros; cn C. Qed.
Lemma put_new tr t q a k i os : forallb calm os = true -> last_put (tr ++ OAnswer t q a :: OPut t k i :: os) tr t q a k i.
Proof. intros C. exists os. split; [reflexivity|]. split; [|split]; intros; cn C. Qed.
Lemma qof_inj k k' : qof k = qof k' -> k = k'.
Proof. destruct k as [n e], k' as [n' e']. unfold qof. cbn. destruct (Z.eqb_spec e 0) as [->|], (Z.eqb_spec e' 0) as [->|]; intros H; congruence. Qed.
Lemma written_put d tr t k a o os : written d tr -> forallb calm os = true -> made (snd d ++ [o]) tr t k a o ->
  written (dset key_eqb k (length (snd d)) (fst d), snd d ++ [o]) (tr ++ OAnswer t (qof k) a :: OPut t k (length (snd d)) :: os).
Proof.
  intros W C M k' i. cbn [fst snd]. rewrite kget_set. destruct (key_eqb k' k) eqn:K.
  - apply key_eqb_eq in K. subst k'. intros H. injection H as <-. exists tr, t, a, o. split; [apply put_new; exact C|]. split; [rewrite nth_error_app2, Nat.sub_diag by lia; reflexivity|exact M].
  - intros H. destruct (W k' i H) as (x & t' & a' & o' & L & N & M'). exists x, t', a', o'. split; [|split; [apply nth_more; exact N|apply made_more; exact M']].
    assert (NK : k' <> k) by (intros ->; rewrite key_eqb_refl in K; discriminate).
    apply put_more; [exact L| | |].
    + intros t2 a2 [J|[J|J]]; [|discriminate|cn C]. injection J as _ J _. apply qof_inj in J. congruence.
    + intros t2 j [J|[J|J]]; [discriminate|congruence|cn C].
    + intros t2 [J|[J|J]]; [discriminate|discriminate|cn C].
Qed.
Lemma written_eff t p d d' os p' tr c ts : eff t p d d' os p' -> nth_error ts t = Some (mkAT c p) -> working ts d tr -> written d tr ->
  written d' (tr ++ os) /\ working (upd t (mkAT c p') ts) d' (tr ++ os).
Proof.
  intros E N WK W.
  assert (OLD : forall x ys, working ts (fst d, snd d ++ x) (tr ++ ys)).
  { intros x ys t0 c0 p0 n i ep T R. destruct (WK _ _ _ _ _ _ T R). cbn [snd]. split; [assumption|]. apply rooted_more. assumption. }
  assert (UP : forall dx ys, (exists x, snd dx = snd d ++ x) -> (forall n i ep, root_at p' = Some (n, i, ep) -> 1 <= ep /\ rooted (snd dx) (tr ++ ys) t n i) -> working (upd t (mkAT c p') ts) dx (tr ++ ys)).
  { intros dx ys [x X] H t0 c0 p0 n i ep T R. rewrite (nth_upd' _ _ _ _ N) in T. destruct (Nat.eqb_spec t0 t) as [->|]; [injection T as <- <-; exact (H _ _ _ R)|]. rewrite X. exact (OLD x ys _ _ _ _ _ _ T R). }
  destruct E as [os p' C R|q a os p' U C R|os0 k os p' O C R|n k cls b g sp l c0 os p' -> NN C R|n root ep cls g sp c0 os p' RP NN C R].
  - split; [intros k i H; destruct (W k i H) as (x & t' & a & o & L & M); exists x, t', a, o; split; [apply put_calm; assumption|exact M]|].
    apply UP; [exists []; rewrite app_nil_r; reflexivity|]. intros n i ep E. congruence.
  - split.
    + intros k i H. destruct (W k i H) as (x & t' & a' & o & L & M). exists x, t', a', o. split; [|exact M]. apply put_more; [exact L| | |].
      * intros t2 a2 [J|J]; [injection J as <- _ <-; exact U|cn C].
      * intros t2 j [J|J]; [discriminate|cn C].
      * intros t2 [J|J]; [discriminate|cn C].
    + apply UP; [exists []; rewrite app_nil_r; reflexivity|]. intros n i ep E. destruct R as [R|(n0 & root & k & -> & R)]; [congruence|]. rewrite R in E. injection E as <- <- <-.
      destruct (WK _ _ _ n0 root 1 N eq_refl) as [_ H]. split; [lia|]. apply rooted_tr. exact H.
  - split.
    + intros k' i. cbn [fst snd]. rewrite kget_del. destruct (key_eqb k' k) eqn:K; [discriminate|]. intros H. destruct (W k' i H) as (x & t' & a' & o & L & M). exists x, t', a', o. split; [|exact M].
      assert (NK : k' <> k) by (intros ->; rewrite key_eqb_refl in K; discriminate). apply put_more; [exact L| | |].
      * intros t2 a2 J. apply in_app_or in J as [J|[J|J]]; [|discriminate|cn C]. destruct O as [->|[l ->]]; [destruct J|]. destruct J as [J|[]]. injection J as _ _ <-. exact I.
      * intros t2 j J. apply in_app_or in J as [J|[J|J]]; [|discriminate|cn C]. destruct O as [->|[l ->]]; [destruct J|]. destruct J as [J|[]]. discriminate.
      * intros t2 J. apply in_app_or in J as [J|[J|J]]; [|congruence|cn C]. destruct O as [->|[l ->]]; [destruct J|]. destruct J as [J|[]]. discriminate.
    + apply UP; [exists []; rewrite app_nil_r; reflexivity|]. intros n i ep E. congruence.
  - split.
    + apply (written_put d tr t (n, 0) (AInfo cls b g sp l)); [exact W|exact C|]. split; [reflexivity|]. exists c0. auto.
    + apply UP; [eexists; reflexivity|]. intros n' i ep E. destruct R as [R|R]; [congruence|]. rewrite R in E. injection E as <- <- <-. split; [lia|]. cbn [snd].
      exists tr, os, cls, b, g, sp, l, c0. split; [reflexivity|]. split; [exact NN|]. rewrite nth_error_app2, Nat.sub_diag by lia. reflexivity.
  - destruct (WK _ _ _ _ _ _ N RP) as [EP RT]. split.
    + assert (Q : QCap n ep = qof (n, ep)) by (unfold qof; cbn; destruct (Z.eqb_spec ep 0); [lia|reflexivity]). rewrite Q.
      apply (written_put d tr t (n, ep) (ACap cls g sp)); [exact W|exact C|]. split; [exact EP|]. exists c0, root. split; [exact NN|]. split; [reflexivity|]. apply rooted_os. exact RT.
    + apply UP; [eexists; reflexivity|]. intros n' i ep' E. destruct R as [R|R]; [congruence|]. rewrite R in E. injection E as <- <- <-. split; [lia|]. cbn [snd]. apply rooted_more. exact RT.
Qed.
Lemma written_exec es s tr : aexec app0 es s tr -> written (tabs_of s) tr /\ working (a_tasks s) (tabs_of s) tr.
Proof.
  induction 1 as [|es s tr e s' os X [W K] ST]; [split; [intros k i H; discriminate H|intros [|t] c p n i ep H; discriminate H]|].
  pose proof (astep_case _ _ _ _ ST) as C. destruct C as [z|c d os p E|t c p a d os p' N E|t c p e N NE].
  - rewrite app_nil_r. split; assumption.
  - destruct (q_begin (a_me s) (length (a_tasks s)) c (tabs_of s)) as [[Q1 Q2] R]. rewrite E in Q1, Q2, R. cbn in Q1, Q2, R. subst d. split.
    + intros k i H. destruct (W k i H) as (x & t' & a & o & L & M). exists x, t', a, o. split; [apply put_calm; [exact L|exact Q2]|exact M].
    + intros t c' p' n i ep. cbn [a_tasks]. rewrite nth_snoc'. destruct (Nat.eqb t _); intros T RR; [injection T as <- <-; unfold rootless in R; cbn in R; congruence|]. destruct (K _ _ _ _ _ _ T RR) as [A B]. split; [exact A|]. apply rooted_tr. exact B.
  - apply eff_resume in E. pose proof (written_eff _ _ _ _ _ _ _ _ _ E N K W) as H. destruct d. exact H.
  - assert (E : eff t p (tabs_of s) (tabs_of s) [ODone t (Err e)] (PEnd (Err e))) by (apply E_plain; reflexivity). exact (written_eff _ _ _ _ _ _ _ _ _ E N K W).
Qed.
Lemma node_shows es s tr n o : aexec app0 es s tr -> object s (n, 0) = Some o ->
  exists x t i cls b g sp l c, last_put tr x t (QInfo n) (AInfo cls b g sp l) (n, 0) i /\ entry s (n, 0) = Some i /\ new_node cls = Ok c /\ o = mkO n 0 c b g sp l None.
Proof.
  intros X H. destruct (written_exec _ _ _ X) as [W _]. unfold object in H. destruct (entry s (n, 0)) as [i|] eqn:E; [|discriminate].
  destruct (W (n, 0) i E) as (x & t & a & o' & L & N & M). cbn [snd tabs_of] in N. rewrite H in N. injection N as <-. destruct a; cbn in M; try contradiction; [|lia].
  destruct M as (_ & c & NN & ->). exists x, t, i, cls, basic, generic, specific, listening, c. auto.
Qed.
Lemma end_shows es s tr n e o : aexec app0 es s tr -> e <> 0 -> object s (n, e) = Some o ->
  exists x t i cls g sp c p, last_put tr x t (QCap n e) (ACap cls g sp) (n, e) i /\ entry s (n, e) = Some i /\ 1 <= e /\ new_node cls = Ok c /\ o = mkO n e c 0 g sp false (Some p) /\
    exists x1 x2 cls' b g' sp' l, x = x1 ++ OAnswer t (QInfo n) (AInfo cls' b g' sp' l) :: OPut t (n, 0) p :: x2 /\ shown o_basic s o = Some b /\ shown o_listening s o = Some l.
Proof.
  intros X NZ H. destruct (written_exec _ _ _ X) as [W _]. unfold object in H. destruct (entry s (n, e)) as [i|] eqn:E; [|discriminate].
  destruct (W (n, e) i E) as (x & t & a & o' & L & N & M). cbn [snd tabs_of] in N. rewrite H in N. injection N as <-. destruct a; cbn in M; try contradiction; [lia|].
  destruct M as (E1 & c & p & NN & -> & (x1 & x2 & cls' & b & g' & sp' & l & c' & EX & _ & O)). exists x, t, i, cls, generic, specific, c, p.
  unfold qof in L. cbn in L. destruct (Z.eqb_spec e 0); [contradiction|]. split; [exact L|]. split; [reflexivity|]. split; [exact E1|]. split; [exact NN|]. split; [reflexivity|].
  exists x1, x2, cls', b, g', sp', l. split; [exact EX|]. unfold shown. cbn [o_parent]. cbn [tabs_of snd] in O. rewrite O. auto.
Qed.
Lemma alike_one es s tr n e o r : aexec app0 es s tr -> (forall t i t' i', In (OPut t (n, 0) i) tr -> In (OPut t' (n, 0) i') tr -> i = i') -> object s (n, e) = Some o -> object s (n, 0) = Some r ->
  shown o_listening s o = shown o_listening s r /\ shown o_basic s o = shown o_basic s r.
Proof.
  intros X ONE O R. destruct (Z.eq_dec e 0) as [->|NZ]; [rewrite O in R; injection R as <-; auto|].
  destruct (end_shows _ _ _ _ _ _ X NZ O) as (x & t & i & cls & g & sp & c & p & (y & T & _) & _ & _ & _ & -> & (x1 & x2 & cls' & b & g' & sp' & l & XE & _)).
  destruct (node_shows _ _ _ _ _ X R) as (x0 & t0 & j & cls0 & b0 & g0 & sp0 & l0 & c0 & (y0 & T0 & _) & E0 & _ & R0).
  assert (p = j) as ->.
  { apply (ONE t p t0 j); [rewrite T, XE, <- app_assoc; apply in_or_app; right; right; left; reflexivity|rewrite T0; apply in_or_app; right; right; left; reflexivity]. }
  unfold object in R. rewrite E0 in R. subst r. unfold shown. cbn [o_parent]. rewrite R. auto.
Qed.
