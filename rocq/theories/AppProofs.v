(** The application's node table: steps, and the invariants of every execution. *)
From Coq Require Import String ZArith List Bool Lia.
From Verif Require Import Py Schema Registry Codec Waiter Conn NodeM AppM SpecApp.
Import ListNotations.
Open Scope list_scope.
Open Scope string_scope.
Open Scope list_scope.
Open Scope Z_scope.

(** ** dictionaries with pairs as keys *)
Lemma key_eqb_eq a b : key_eqb a b = true <-> a = b.
Proof. destruct a as [a1 a2], b as [b1 b2]. unfold key_eqb. cbn. rewrite andb_true_iff, !Z.eqb_eq. split; [intros [-> ->]; reflexivity|intros H; injection H as -> ->; auto]. Qed.
Lemma key_eqb_refl a : key_eqb a a = true. Proof. apply key_eqb_eq. reflexivity. Qed.
Lemma key_eqb_neq a b : a <> b -> key_eqb a b = false. Proof. intros N. destruct (key_eqb a b) eqn:E; [apply key_eqb_eq in E; contradiction|reflexivity]. Qed.
Lemma key_dec (a b : key) : {a = b} + {a <> b}.
Proof. destruct (key_eqb a b) eqn:E; [left; apply key_eqb_eq; exact E|right; intros H; apply key_eqb_eq in H; congruence]. Qed.
Notation kget := (dget key_eqb).
Lemma kget_set {V} k k' (v : V) d : kget k (dset key_eqb k' v d) = if key_eqb k k' then Some v else kget k d.
Proof.
  induction d as [|[k0 v0] d IH]; cbn.
  - destruct (key_eqb k k'); reflexivity.
  - destruct (key_eqb k' k0) eqn:E; cbn.
    + apply key_eqb_eq in E. subst k0. destruct (key_eqb k k'); reflexivity.
    + destruct (key_eqb k k0) eqn:E0; [|exact IH]. apply key_eqb_eq in E0. subst k0. destruct (key_eqb k k') eqn:E1; [|reflexivity].
      apply key_eqb_eq in E1. subst k'. rewrite key_eqb_refl in E. discriminate.
Qed.
Lemma kget_del {V} k k' (d : list (key * V)) : kget k (ddel key_eqb k' d) = if key_eqb k k' then None else kget k d.
Proof.
  induction d as [|[k0 v0] d IH]; cbn; [destruct (key_eqb k k'); reflexivity|].
  destruct (key_eqb k' k0) eqn:E; cbn.
  - rewrite IH. apply key_eqb_eq in E. subst k0. destruct (key_eqb k k'); reflexivity.
  - destruct (key_eqb k k0) eqn:E0; [|exact IH]. apply key_eqb_eq in E0. subst k0. destruct (key_eqb k k') eqn:E1; [|reflexivity].
    apply key_eqb_eq in E1. subst k'. rewrite key_eqb_refl in E. discriminate.
Qed.
Lemma kmem_get {V} k (d : list (key * V)) : dmem key_eqb k d = match kget k d with Some _ => true | None => false end.
Proof. reflexivity. Qed.
Lemma kget_in {V} k (v : V) d : kget k d = Some v -> In (k, v) d.
Proof. induction d as [|[k0 v0] d IH]; cbn; [discriminate|]. destruct (key_eqb k k0) eqn:E; [|auto]. apply key_eqb_eq in E. subst. intros H. injection H as ->. auto. Qed.
Lemma in_kget {V} k (v : V) d : NoDup (map fst d) -> In (k, v) d -> kget k d = Some v.
Proof.
  induction d as [|[k0 v0] d IH]; cbn; [intros _ []|]. intros N [J|J]; inversion N; subst.
  - injection J as -> ->. rewrite key_eqb_refl. reflexivity.
  - destruct (key_eqb k k0) eqn:E; [|auto]. apply key_eqb_eq in E. subst k0. exfalso. apply H1. apply in_map_iff. exists (k, v). auto.
Qed.
Lemma kget_key {V} k (d : list (key * V)) : kget k d <> None <-> In k (map fst d).
Proof.
  induction d as [|[k0 v0] d IH]; cbn; [tauto|]. destruct (key_eqb k k0) eqn:E.
  - apply key_eqb_eq in E. subst. split; [auto|discriminate].
  - rewrite IH. split; [auto|]. intros [->|J]; [rewrite key_eqb_refl in E; discriminate|exact J].
Qed.
Lemma kset_keys {V} k (v : V) d : forall x, In x (map fst (dset key_eqb k v d)) <-> x = k \/ In x (map fst d).
Proof.
  intros x. rewrite <- !kget_key, kget_set. destruct (key_eqb x k) eqn:E; [apply key_eqb_eq in E; subst; split; [auto|discriminate]|].
  split; [auto|]. intros [->|H]; [rewrite key_eqb_refl in E; discriminate|exact H].
Qed.
Lemma kset_nodup {V} k (v : V) d : NoDup (map fst d) -> NoDup (map fst (dset key_eqb k v d)).
Proof.
  induction d as [|[k0 v0] d IH]; cbn; intros N; [repeat constructor; auto|]. inversion N; subst. destruct (key_eqb k k0) eqn:E; cbn; [constructor; assumption|].
  constructor; [|auto]. rewrite kset_keys. intros [->|J]; [rewrite key_eqb_refl in E; discriminate|contradiction].
Qed.
Lemma kdel_nodup {V} k (d : list (key * V)) : NoDup (map fst d) -> NoDup (map fst (ddel key_eqb k d)).
Proof.
  induction d as [|[k0 v0] d IH]; cbn; intros N; [constructor|]. inversion N; subst. destruct (key_eqb k k0); cbn; [auto|]. constructor; [|auto].
  rewrite <- kget_key, kget_del. rewrite <- kget_key in H1. destruct (key_eqb k0 k); [tauto|exact H1].
Qed.

(** ** steps *)
Definition tabs_of (s : app) : tabs := (a_tab s, a_objs s).
Inductive acase (s : app) : aevent -> app -> list aobs -> Prop :=
| AC_me z : acase s (EMe z) (mkA z (a_tab s) (a_objs s) (a_tasks s)) []
| AC_call c d os p : astart (a_me s) (length (a_tasks s)) c (tabs_of s) = (d, os, p) ->
    acase s (ECall c) (mkA (a_me s) (fst d) (snd d) (a_tasks s ++ [mkAT c p])) (OCalled (length (a_tasks s)) c :: os)
| AC_answer t c p a d os p' : nth_error (a_tasks s) t = Some (mkAT c p) -> aresume (a_me s) t p a (tabs_of s) = Some (d, os, p') ->
    acase s (EAnswer t (Ok a)) (mkA (a_me s) (fst d) (snd d) (upd t (mkAT c p') (a_tasks s))) os
| AC_raise t c p e : nth_error (a_tasks s) t = Some (mkAT c p) -> (forall r, p <> PEnd r) ->
    acase s (EAnswer t (Err e)) (mkA (a_me s) (a_tab s) (a_objs s) (upd t (mkAT c (PEnd (Err e))) (a_tasks s))) [ODone t (Err e)].
Lemma astep_case s e s' os : astep s e = Some (s', os) -> acase s e s' os.
Proof.
  unfold astep. fold (tabs_of s). destruct e as [c|t r|z].
  - destruct (astart _ _ _ _) as [[d o1] p] eqn:E. intros H. injection H as <- <-. constructor. exact E.
  - destruct (nth_error (a_tasks s) t) as [[c p]|] eqn:N; [|discriminate]. cbn [at_pc]. destruct r as [a|e].
    + destruct (aresume (a_me s) t p a (tabs_of s)) as [[[d o1] p']|] eqn:E.
      * intros H. assert (Q : Some (mkA (a_me s) (fst d) (snd d) (aset t p' (a_tasks s)), o1) = Some (s', os)).
        { destruct p; (discriminate E || (rewrite E in H; exact H)). }
        injection Q as <- <-. unfold aset. rewrite N. cbn [at_call]. econstructor; [exact N|exact E].
      * intros H. exfalso. destruct p; (discriminate H || (rewrite E in H; discriminate H)).
    + destruct p; try discriminate; cbn; intros H; injection H as <- <-; unfold aset; rewrite N; (econstructor; [exact N|discriminate]).
  - intros H. injection H as <- <-. constructor.
Qed.

(** ** who observes what *)
Definition mine (t : nat) (o : aobs) : Prop := match o with OCalled _ _ => False | _ => who o = t end.
Definition by_t (t : nat) (g : ago) : Prop := Forall (mine t) (snd (fst g)).
Lemma mine_who t o : mine t o -> who o = t. Proof. destruct o; cbn; tauto. Qed.
Ltac by_simple := unfold by_t, stop; cbn; repeat constructor.
Lemma by_then t os g : Forall (mine t) os -> by_t t g -> by_t t (obs_then os g).
Proof. destruct g as [[d os'] p]. unfold by_t. cbn. intros A B. apply Forall_app. auto. Qed.
Lemma by_announce t new d : by_t t (announce t new d). Proof. destruct new; by_simple. Qed.
Lemma by_update me t rest : forall new d, by_t t (update_loop me t rest new d).
Proof. induction rest as [|n rest IH]; intros new d; cbn [update_loop]; [apply by_announce|]. destruct (dmem _ _ _); [apply IH|]. destruct (n =? me); [apply IH|by_simple]. Qed.
Lemma by_start me t rest : forall d, by_t t (start_loop me t rest d).
Proof. induction rest as [|n rest IH]; intros d; cbn [start_loop]; [by_simple|]. destruct (n =? me); [apply IH|by_simple]. Qed.
Lemma by_loaded me t k nodes d : by_t t (loaded me t k nodes d).
Proof. destruct k; [by_simple|apply by_update|apply by_start]. Qed.
Lemma by_caps me t n root ep last got k d : by_t t (caps me t n root ep last got k d).
Proof. unfold caps. destruct (ep <=? last); [by_simple|apply by_loaded]. Qed.
Lemma by_remove me t rest all l d : by_t t (remove me t rest all l d).
Proof. destruct rest as [|k rest]; cbn [remove]; [destruct all; [apply by_update|by_simple]|]. destruct (dmem _ _ _); by_simple. Qed.
Lemma by_each t rest size d : by_t t (start_each t rest size d).
Proof. unfold start_each. destruct (Nat.eqb _ _); [destruct rest|]; by_simple. Qed.
Lemma by_resume me t p a d g : aresume me t p a d = Some g -> by_t t g.
Proof.
  destruct p, a; try discriminate; cbn [aresume]; intros H; try (injection H as <-);
    try match goal with |- by_t _ (obs_then _ _) => apply by_then; [repeat constructor|] end;
    try solve [by_simple | apply by_update | apply by_remove | apply by_caps | apply by_start | apply by_each].
  - unfold with_info. destruct (new_node cls) as [c|e]; [|by_simple]. cbn. destruct (supports c 96); [by_simple|]. apply (by_then t [_]); [repeat constructor|apply by_loaded].
  - unfold with_cap. destruct (new_node cls) as [c|e]; [|by_simple]. cbn. apply (by_then t [_]); [repeat constructor|apply by_caps].
  - destruct new; by_simple.
  - destruct rest; by_simple.
  - destruct (int_is _ _); [destruct (int_is _ _)|]; injection H as <-; by_simple.
Qed.
Lemma by_begin me t c d : by_t t (astart me t c d).
Proof.
  destruct c; cbn [astart]; try by_simple.
  - destruct (n =? me); by_simple.
  - unfold start_message. destruct (match ep with Some _ => _ | None => _ end); [by_simple|]. destruct (root =? me); by_simple.
  - unfold start_unhandled. destruct (is_msg _ _); [|by_simple]. destruct (is_msg _ _); [by_simple|]. destruct (is_msg _ _); [by_simple|]. destruct (getattr m "command"); by_simple.
Qed.

(** ** which suspensions belong to which call *)
Definition kfits (c : acall) (k : kont) : bool :=
  match c, k with AUpdate, KUpdate _ _ | AStartup, KStart _ | ALoad _, KLoad => true | _, _ => false end.
Definition fits (c : acall) (p : apc) : bool :=
  match p with
  | PEnd _ => true
  | PInfo _ k | PCount _ _ k | PCap _ _ _ _ _ k => kfits c k
  | PList | PRemoved _ _ _ | PRemovedAll _ | PAddedAll _ | PAdded _ => match c with AUpdate => true | _ => false end
  | PStartList | PFailed | PStartAll | PStartEach _ _ => match c with AStartup => true | _ => false end
  | PHandle | PChip => match c with AMessage _ _ _ _ => true | _ => false end
  | PStatus | PRemStatus _ | PZero | PZeros | POffer => match c with AUnhandled _ => true | _ => false end
  end.
Definition gfits (c : acall) (g : ago) : Prop := fits c (snd g) = true.
Lemma gfits_then c os g : gfits c g -> gfits c (obs_then os g). Proof. destruct g as [[d os'] p]. exact (fun H => H). Qed.
Lemma gfits_update me t rest : forall new d, gfits AUpdate (update_loop me t rest new d).
Proof. induction rest as [|n rest IH]; intros new d; cbn [update_loop]; [destruct new; reflexivity|]. destruct (dmem _ _ _); [apply IH|]. destruct (n =? me); [apply IH|reflexivity]. Qed.
Lemma gfits_start me t rest : forall d, gfits AStartup (start_loop me t rest d).
Proof. induction rest as [|n rest IH]; intros d; cbn [start_loop]; [reflexivity|]. destruct (n =? me); [apply IH|reflexivity]. Qed.
Lemma gfits_loaded me t c k nodes d : kfits c k = true -> gfits c (loaded me t k nodes d).
Proof. destruct c, k; try discriminate; intros _; [apply gfits_update|apply gfits_start|reflexivity]. Qed.
Lemma gfits_caps me t c n root ep last got k d : kfits c k = true -> gfits c (caps me t n root ep last got k d).
Proof. intros H. unfold caps. destruct (ep <=? last); [exact H|apply gfits_loaded; exact H]. Qed.
Lemma gfits_remove me t rest all l d : gfits AUpdate (remove me t rest all l d).
Proof. destruct rest as [|k rest]; cbn [remove]; [destruct all; [apply gfits_update|reflexivity]|]. destruct (dmem _ _ _); reflexivity. Qed.
Lemma gfits_each t rest size d : gfits AStartup (start_each t rest size d).
Proof. unfold start_each. destruct (Nat.eqb _ _); [destruct rest|]; reflexivity. Qed.
Lemma gfits_resume me t c p a d g : fits c p = true -> aresume me t p a d = Some g -> gfits c g.
Proof.
  intros F H. destruct p, a; try discriminate; cbn [aresume] in H; cbn [fits] in F; try (injection H as <-); try apply gfits_then;
    try (destruct c; try discriminate F);
    try solve [reflexivity | apply gfits_update | apply gfits_remove | apply gfits_start | apply gfits_each | apply gfits_caps; exact F].
  all: try (unfold with_list; apply gfits_remove).
  all: try (unfold with_info; destruct (new_node cls) as [cc|e]; [|reflexivity]; cbn; destruct (supports cc 96); [exact F|]; apply (gfits_then _ [_]); apply gfits_loaded; exact F).
  all: try (unfold with_cap; destruct (new_node cls) as [cc|e]; [|reflexivity]; cbn; apply (gfits_then _ [_]); apply gfits_caps; exact F).
  all: try (destruct new; reflexivity). all: try (destruct rest; reflexivity).
  destruct (int_is _ _); [destruct (int_is _ _)|]; injection H as <-; reflexivity.
Qed.
Lemma gfits_begin me t c d : gfits c (astart me t c d).
Proof.
  destruct c; cbn [astart]; try reflexivity.
  - destruct (n =? me); reflexivity.
  - unfold start_message. destruct (match ep with Some _ => _ | None => _ end); [reflexivity|]. destruct (root =? me); reflexivity.
  - unfold start_unhandled. destruct (is_msg _ _); [|reflexivity]. destruct (is_msg _ _); [reflexivity|]. destruct (is_msg _ _); [reflexivity|]. destruct (getattr m "command"); reflexivity.
Qed.

(** ** the table holds every object under its own name *)
Record tab_ok (d : tabs) : Prop := mkTabOk {
  to_keys : NoDup (map fst (fst d));
  to_objs : forall k i, In (k, i) (fst d) -> exists o, nth_error (snd d) i = Some o /\ o_key o = k }.
Lemma tab_ok_put t o d : tab_ok d -> tab_ok (fst (put t o d)).
Proof.
  intros [K O]. constructor; cbn.
  - apply kset_nodup. exact K.
  - intros k i J. apply in_kget in J; [|apply kset_nodup; exact K]. rewrite kget_set in J. destruct (key_eqb k (o_key o)) eqn:E.
    + injection J as <-. apply key_eqb_eq in E. subst k. exists o. rewrite nth_error_app2, Nat.sub_diag by lia. auto.
    + apply kget_in in J. destruct (O _ _ J) as (o' & N & E'). exists o'. split; [|exact E']. rewrite nth_error_app1; [exact N|]. apply nth_error_Some. congruence.
Qed.
Lemma tab_ok_del k d : tab_ok d -> tab_ok (ddel key_eqb k (fst d), snd d).
Proof.
  intros [K O]. constructor; cbn; [apply kdel_nodup; exact K|]. intros k' i J. apply in_kget in J; [|apply kdel_nodup; exact K]. rewrite kget_del in J.
  destruct (key_eqb k' k); [discriminate|]. apply O. apply kget_in. exact J.
Qed.
Definition go_ok (g : ago) : Prop := tab_ok (fst (fst g)).
Lemma go_then os g : go_ok g -> go_ok (obs_then os g). Proof. destruct g as [[d os'] p]. exact (fun H => H). Qed.
Lemma go_update me t rest : forall new d, tab_ok d -> go_ok (update_loop me t rest new d).
Proof. induction rest as [|n rest IH]; intros new d T; cbn [update_loop]; [destruct new; exact T|]. destruct (dmem _ _ _); [apply IH, T|]. destruct (n =? me); [apply IH, T|exact T]. Qed.
Lemma go_start me t rest : forall d, tab_ok d -> go_ok (start_loop me t rest d).
Proof. induction rest as [|n rest IH]; intros d T; cbn [start_loop]; [exact T|]. destruct (n =? me); [apply IH, T|exact T]. Qed.
Lemma go_loaded me t k nodes d : tab_ok d -> go_ok (loaded me t k nodes d).
Proof. intros T. destruct k; [exact T|apply go_update, T|apply go_start, T]. Qed.
Lemma go_caps me t n root ep last got k d : tab_ok d -> go_ok (caps me t n root ep last got k d).
Proof. intros T. unfold caps. destruct (ep <=? last); [exact T|apply go_loaded, T]. Qed.
Lemma go_remove me t rest all l d : tab_ok d -> go_ok (remove me t rest all l d).
Proof. intros T. destruct rest as [|k rest]; cbn [remove]; [destruct all; [apply go_update, T|exact T]|]. destruct (dmem _ _ _); [apply (tab_ok_del k d T)|exact T]. Qed.
Lemma go_each t rest size d : tab_ok d -> go_ok (start_each t rest size d).
Proof. intros T. unfold start_each. destruct (Nat.eqb _ _); [destruct rest|]; exact T. Qed.
Lemma go_resume me t p a d g : tab_ok d -> aresume me t p a d = Some g -> go_ok g.
Proof.
  intros T. destruct p, a; try discriminate; cbn [aresume]; intros H; try (injection H as <-); try apply go_then;
    try solve [exact T | apply go_update, T | apply go_remove, T | apply go_caps, T | apply go_start, T | apply go_each, T].
  - unfold with_info. destruct (new_node cls) as [c|e]; [|exact T]. pose proof (tab_ok_put t (mkO n 0 c basic generic specific listening None) d T) as T'.
    destruct (put t _ d) as [d' o]. cbn [fst] in T'. destruct (supports c 96); [exact T'|]. apply go_then, go_loaded, T'.
  - unfold with_cap. destruct (new_node cls) as [c|e]; [|exact T]. pose proof (tab_ok_put t (mkO n ep c 0 generic specific false (Some root)) d T) as T'.
    destruct (put t _ d) as [d' o]. cbn [fst] in T'. apply go_then, go_caps, T'.
  - destruct new; exact T.
  - destruct rest; exact T.
  - destruct (int_is _ _); [destruct (int_is _ _)|]; injection H as <-; exact T.
Qed.
Lemma start_keeps me t c d : fst (fst (astart me t c d)) = d.
Proof.
  destruct c; cbn [astart]; try reflexivity.
  - destruct (n =? me); reflexivity.
  - unfold start_message. destruct (match ep with Some _ => _ | None => _ end); [reflexivity|]. destruct (root =? me); reflexivity.
  - unfold start_unhandled. destruct (is_msg _ _); [|reflexivity]. destruct (is_msg _ _); [reflexivity|]. destruct (is_msg _ _); [reflexivity|]. destruct (getattr m "command"); reflexivity.
Qed.
(** message handling leaves the table alone *)
Lemma message_keeps me t c p a d g : fits c p = true -> changes c = false -> aresume me t p a d = Some g -> fst (fst g) = d.
Proof.
  intros F C H. destruct c; try discriminate C; destruct p; try discriminate F; destruct a; try discriminate H; cbn [aresume] in H; try (injection H as <-; reflexivity).
  all: try (cbn in F; destruct k; discriminate F).
  destruct (int_is _ _); [destruct (int_is _ _)|]; injection H as <-; reflexivity.
Qed.

Record wf (s : app) : Prop := mkWf { wf_tab : tab_ok (tabs_of s); wf_fits : forall t c p, nth_error (a_tasks s) t = Some (mkAT c p) -> fits c p = true }.
Lemma nth_snoc' {A} (l : list A) x t : nth_error (l ++ [x]) t = if Nat.eqb t (length l) then Some x else nth_error l t.
Proof.
  destruct (Nat.eqb_spec t (length l)) as [->|N]; [rewrite nth_error_app2, Nat.sub_diag by lia; reflexivity|].
  destruct (Nat.ltb_spec t (length l)); [apply nth_error_app1; assumption|]. rewrite nth_error_app2 by lia. replace (t - length l)%nat with (S (t - length l - 1)) by lia. cbn.
  destruct (t - length l - 1)%nat; symmetry; apply nth_error_None; lia.
Qed.
Lemma nth_upd' {A} (l : list A) t x y : nth_error l t = Some y -> forall u, nth_error (upd t x l) u = if Nat.eqb u t then Some x else nth_error l u.
Proof. revert t. induction l as [|z l IH]; intros [|t] H [|u]; cbn in *; try discriminate; try reflexivity. apply IH. exact H. Qed.
Lemma upd_length {A} (l : list A) t x : length (upd t x l) = length l.
Proof. revert t. induction l as [|z l IH]; intros [|t]; cbn; auto. Qed.
Lemma wf0 : wf app0. Proof. constructor; [constructor; [constructor|intros k i []]|]. intros [|t] c p H; discriminate. Qed.
Lemma wf_case s e s' os : acase s e s' os -> wf s -> wf s'.
Proof.
  intros C [T F]. destruct C as [z|c d os p E|t c p a d os p' N E|t c p e N NE].
  - constructor; assumption.
  - constructor; cbn [tabs_of a_tab a_objs a_tasks].
    + pose proof (start_keeps (a_me s) (length (a_tasks s)) c (tabs_of s)) as K. rewrite E in K. cbn in K. subst d. exact T.
    + intros t c' p'. rewrite nth_snoc'. destruct (Nat.eqb t _); [|apply F]. intros H. injection H as <- <-. pose proof (gfits_begin (a_me s) (length (a_tasks s)) c (tabs_of s)) as G. rewrite E in G. exact G.
  - constructor; cbn [tabs_of a_tab a_objs a_tasks].
    + pose proof (go_resume _ _ _ _ _ _ T E) as G. destruct d. exact G.
    + intros u c' q. rewrite (nth_upd' _ _ _ _ N). destruct (Nat.eqb u t); [|apply F]. intros H. injection H as <- <-. exact (gfits_resume _ _ _ _ _ _ _ (F _ _ _ N) E).
  - constructor; [exact T|]. intros u c' q. cbn [a_tasks]. rewrite (nth_upd' _ _ _ _ N). destruct (Nat.eqb u t); [|apply F]. intros H. injection H as <- <-. reflexivity.
Qed.
Lemma wf_exec s0 es s tr : aexec s0 es s tr -> wf s0 -> wf s.
Proof. induction 1 as [|es s tr e s' os X IH S]; [auto|]. intros W. exact (wf_case _ _ _ _ (astep_case _ _ _ _ S) (IH W)). Qed.

(** ** tasks are numbered by their calls *)
Lemma tasks_length s e s' os : acase s e s' os -> (length (a_tasks s) <= length (a_tasks s'))%nat.
Proof. destruct 1; cbn [a_tasks]; rewrite ?upd_length, ?app_length; cbn; lia. Qed.
Lemma calls_exec s0 es s tr : aexec s0 es s tr -> (length (a_tasks s0) <= length (a_tasks s))%nat /\
  (forall t c p, nth_error (a_tasks s0) t = Some (mkAT c p) -> exists p', nth_error (a_tasks s) t = Some (mkAT c p')) /\
  (forall o, In o tr -> (who o < length (a_tasks s))%nat) /\
  (forall t c, In (OCalled t c) tr -> (length (a_tasks s0) <= t)%nat /\ exists p, nth_error (a_tasks s) t = Some (mkAT c p)) /\
  (forall t c p, (length (a_tasks s0) <= t)%nat -> nth_error (a_tasks s) t = Some (mkAT c p) -> In (OCalled t c) tr).
Proof.
  induction 1 as [|es s tr e s' os X (L & K & W & C & I) S].
  - split; [lia|]. split; [eauto|]. split; [intros o []|]. split; [intros t c []|]. intros t c p G N. exfalso. apply (proj2 (nth_error_None _ _)) in G. congruence.
  - apply astep_case in S. pose proof (tasks_length _ _ _ _ S) as L'. split; [lia|].
    assert (K' : forall t c p, nth_error (a_tasks s) t = Some (mkAT c p) -> exists p', nth_error (a_tasks s') t = Some (mkAT c p')).
    { intros t c p N. destruct S as [z|c' d os p' E|u c' q a d os p' N' E|u c' q e N' NE]; cbn [a_tasks].
      - eauto.
      - exists p. rewrite nth_error_app1; [exact N|]. apply nth_error_Some. congruence.
      - rewrite (nth_upd' _ _ _ _ N'). destruct (Nat.eqb_spec t u); [subst; rewrite N in N'; injection N' as <- <-; eauto|eauto].
      - rewrite (nth_upd' _ _ _ _ N'). destruct (Nat.eqb_spec t u); [subst; rewrite N in N'; injection N' as <- <-; eauto|eauto]. }
    split; [intros t c p N; destruct (K _ _ _ N) as (p1 & N1); eauto|].
    assert (W' : forall o, In o os -> (who o < length (a_tasks s'))%nat /\ forall t c, o = OCalled t c -> t = length (a_tasks s) /\ exists p, nth_error (a_tasks s') t = Some (mkAT c p)).
    { destruct S as [z|c' d os p' E|u c' q a d os p' N' E|u c' q e N' NE]; cbn [a_tasks].
      - intros o [].
      - pose proof (by_begin (a_me s) (length (a_tasks s)) c' (tabs_of s)) as B. rewrite E in B. unfold by_t in B. cbn in B. rewrite Forall_forall in B.
        intros o [<-|J].
        + cbn. rewrite app_length. cbn. split; [lia|]. intros t c H. injection H as <- <-. split; [reflexivity|]. rewrite nth_snoc', Nat.eqb_refl. eauto.
        + specialize (B _ J). rewrite (mine_who _ _ B), app_length. cbn. split; [lia|]. intros t c ->. destruct B.
      - pose proof (by_resume _ _ _ _ _ _ E) as B. unfold by_t in B. cbn in B. rewrite Forall_forall in B. intros o J. specialize (B _ J). rewrite (mine_who _ _ B), upd_length.
        split; [apply nth_error_Some; congruence|]. intros t c ->. destruct B.
      - intros o [<-|[]]. cbn. rewrite upd_length. split; [apply nth_error_Some; congruence|]. intros t c H. discriminate. }
    split; [intros o J; apply in_app_or in J as [J|J]; [specialize (W _ J); lia|exact (proj1 (W' _ J))]|].
    split.
    + intros t c J. apply in_app_or in J as [J|J]; [destruct (C _ _ J) as (G & p & N); split; [exact G|exact (K' _ _ _ N)]|]. destruct (proj2 (W' _ J) _ _ eq_refl) as (-> & Q). split; [lia|exact Q].
    + intros t c p G N. apply in_or_app. destruct S as [z|c' d os p' E|u c' q a d os p' N' E|u c' q e N' NE]; cbn [a_tasks] in N.
      * left. eauto.
      * rewrite nth_snoc' in N. destruct (Nat.eqb_spec t (length (a_tasks s))); [|left; eauto]. injection N as <- <-. subst t. right. left. reflexivity.
      * left. rewrite (nth_upd' _ _ _ _ N') in N. destruct (Nat.eqb_spec t u); [injection N as <- <-; subst|]; eauto.
      * left. rewrite (nth_upd' _ _ _ _ N') in N. destruct (Nat.eqb_spec t u); [injection N as <- <-; subst|]; eauto.
Qed.

(** ** every turn of a task is observable; a task is done when it says so *)
Definition shape (t : nat) (g : ago) : Prop := snd (fst g) <> [] /\ (forall t' r, In (ODone t' r) (snd (fst g)) -> t' = t /\ snd g = PEnd r) /\ (forall r, snd g = PEnd r -> In (ODone t r) (snd (fst g))).
Ltac shp := split; [discriminate|]; split; [let J := fresh in intros ? ? J; cbn in J; repeat (destruct J as [J|J]; [try discriminate J; injection J as <- <-; split; reflexivity|]); destruct J|let E := fresh in intros ? E; try discriminate E; injection E as <-; cbn; auto].
Lemma shape_then t os g : (forall t' r, ~ In (ODone t' r) os) -> shape t g -> shape t (obs_then os g).
Proof.
  destruct g as [[d os'] p]. intros N (A & B & C). cbn in *. split; [intros Q; apply app_eq_nil in Q as [_ Q]; contradiction|]. split.
  - intros t' r J. apply in_app_or in J as [J|J]; [destruct (N _ _ J)|exact (B _ _ J)].
  - intros r E. apply in_or_app. right. exact (C r E).
Qed.
Lemma shape_update me t rest : forall new d, shape t (update_loop me t rest new d).
Proof. induction rest as [|n rest IH]; intros new d; cbn [update_loop]; [destruct new; shp|]. destruct (dmem _ _ _); [apply IH|]. destruct (n =? me); [apply IH|shp]. Qed.
Lemma shape_start me t rest : forall d, shape t (start_loop me t rest d).
Proof. induction rest as [|n rest IH]; intros d; cbn [start_loop]; [shp|]. destruct (n =? me); [apply IH|shp]. Qed.
Lemma shape_loaded me t k nodes d : shape t (loaded me t k nodes d).
Proof. destruct k; [shp|apply shape_update|apply shape_start]. Qed.
Lemma shape_caps me t n root ep last got k d : shape t (caps me t n root ep last got k d).
Proof. unfold caps. destruct (ep <=? last); [shp|apply shape_loaded]. Qed.
Lemma shape_remove me t rest all l d : shape t (remove me t rest all l d).
Proof. destruct rest as [|k rest]; cbn [remove]; [destruct all; [apply shape_update|shp]|]. destruct (dmem _ _ _); shp. Qed.
Lemma shape_each t rest size d : shape t (start_each t rest size d).
Proof. unfold start_each. destruct (Nat.eqb _ _); [destruct rest|]; shp. Qed.
Ltac nodone := let J := fresh in intros ? ? J; repeat (destruct J as [J|J]; [discriminate J|]); exact J.
Lemma shape_resume me t p a d g : aresume me t p a d = Some g -> shape t g.
Proof.
  destruct p, a; try discriminate; cbn [aresume]; intros H; try (injection H as <-);
    try match goal with |- shape _ (obs_then _ _) => apply shape_then; [nodone|] end;
    try solve [apply shape_update | apply shape_remove | apply shape_caps | apply shape_start | apply shape_each | shp].
  - unfold with_info. destruct (new_node cls) as [c|e]; [|shp]. cbn. destruct (supports c 96); [shp|]. apply (shape_then t [_]); [nodone|apply shape_loaded].
  - unfold with_cap. destruct (new_node cls) as [c|e]; [|shp]. cbn. apply (shape_then t [_]); [nodone|apply shape_caps].
  - destruct new; shp.
  - destruct rest; shp.
  - destruct (int_is _ _); [destruct (int_is _ _)|]; injection H as <-; shp.
Qed.
Lemma shape_begin me t c d : shape t (astart me t c d).
Proof.
  destruct c; cbn [astart]; try shp.
  - destruct (n =? me); shp.
  - unfold start_message. destruct (match ep with Some _ => _ | None => _ end); [shp|]. destruct (root =? me); shp.
  - unfold start_unhandled. destruct (is_msg _ _); [|shp]. destruct (is_msg _ _); [shp|]. destruct (is_msg _ _); [shp|]. destruct (getattr m "command"); shp.
Qed.
Lemma ended_stays me t r a d : aresume me t (PEnd r) a d = None. Proof. destruct a; reflexivity. Qed.
Lemma done_exec s0 es s tr : aexec s0 es s tr -> forall t r, In (ODone t r) tr -> exists c, nth_error (a_tasks s) t = Some (mkAT c (PEnd r)).
Proof.
  induction 1 as [|es s tr e s' os X IH S]; [intros t r []|]. intros t r J. apply in_app_or in J as [J|J].
  - destruct (IH t r J) as (c & N). apply astep_case in S. destruct S as [z|c' d os p' E|u c' q a d os p' N' E|u c' q e N' NE]; cbn [a_tasks].
    + eauto.
    + exists c. rewrite nth_error_app1; [exact N|]. apply nth_error_Some. congruence.
    + rewrite (nth_upd' _ _ _ _ N'). destruct (Nat.eqb_spec t u); [|eauto]. subst u. rewrite N in N'. injection N' as <- <-. rewrite ended_stays in E. discriminate.
    + rewrite (nth_upd' _ _ _ _ N'). destruct (Nat.eqb_spec t u); [|eauto]. subst u. rewrite N in N'. injection N' as <- <-. destruct (NE r eq_refl).
  - apply astep_case in S. destruct S as [z|c' d os p' E|u c' q a d os p' N' E|u c' q e N' NE]; cbn [a_tasks].
    + destruct J.
    + pose proof (shape_begin (a_me s) (length (a_tasks s)) c' (tabs_of s)) as (_ & B & _). rewrite E in B. cbn in B. destruct J as [J|J]; [discriminate|]. destruct (B t r J) as [-> ->]. exists c'. rewrite nth_snoc', Nat.eqb_refl. reflexivity.
    + pose proof (shape_resume _ _ _ _ _ _ E) as (_ & B & _). cbn in B. destruct (B t r J) as [-> ->]. exists c'. rewrite (nth_upd' _ _ _ _ N'), Nat.eqb_refl. reflexivity.
    + destruct J as [J|[]]. injection J as <- <-. exists c'. rewrite (nth_upd' _ _ _ _ N'), Nat.eqb_refl. reflexivity.
Qed.
Lemma aexec_app s0 es1 s1 a es2 s2 b : aexec s0 es1 s1 a -> aexec s1 es2 s2 b -> aexec s0 (es1 ++ es2) s2 (a ++ b).
Proof. intros X Y. induction Y; [rewrite !app_nil_r; exact X|]. rewrite !app_assoc. econstructor; eassumption. Qed.
Lemma arun_exec s0 es : forall s tr, arun s0 es = Some (s, tr) -> aexec s0 es s tr.
Proof.
  assert (Q : forall es s0 s tr, arun s0 es = Some (s, tr) -> aexec s0 es s tr).
  { clear. induction es as [|e es IH]; intros s0 s tr H; cbn in H; [injection H as <- <-; constructor|]. destruct (astep s0 e) as [[s1 os]|] eqn:E; [|discriminate].
    destruct (arun s1 es) as [[s2 tr2]|] eqn:E2; [|discriminate]. injection H as <- <-. apply (aexec_app s0 [e] s1 os es s2 tr2); [|apply IH; exact E2]. apply (AX_snoc s0 [] s0 [] e s1 os); [constructor|exact E]. }
  apply Q.
Qed.

(** ** what a task itself does *)
Definition own (t : nat) (tr : list aobs) : list aobs := filter (fun o => Nat.eqb (who o) t) tr.
Lemma own_app t a b : own t (a ++ b) = own t a ++ own t b. Proof. apply filter_app. Qed.
Lemma own_cons t o os : own t (o :: os) = if Nat.eqb (who o) t then o :: own t os else own t os. Proof. reflexivity. Qed.
Lemma own_mine t os : Forall (mine t) os -> own t os = os.
Proof. unfold own. induction 1 as [|o os M F IH]; [reflexivity|]. cbn. rewrite (mine_who _ _ M), Nat.eqb_refl, IH. reflexivity. Qed.
Lemma own_other t u os : Forall (mine u) os -> u <> t -> own t os = [].
Proof. unfold own. intros F N. induction F as [|o os M F IH]; [reflexivity|]. cbn. rewrite (mine_who _ _ M). apply Nat.eqb_neq in N. rewrite N. exact IH. Qed.
Lemma own_in t o tr : who o = t -> In o tr <-> In o (own t tr).
Proof. intros W. unfold own. rewrite filter_In, W, Nat.eqb_refl. tauto. Qed.
Lemma told_own t tr : told t (own t tr) = told t tr.
Proof. unfold own. induction tr as [|o tr IH]; [reflexivity|]. cbn. destruct (Nat.eqb_spec (who o) t) as [E|N]; destruct o; cbn in *; rewrite ?IH; try reflexivity. apply Nat.eqb_neq in N. rewrite N. reflexivity. Qed.
