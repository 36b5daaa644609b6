(** A node list update that is not mixed with another (C69). *)
From Coq Require Import String ZArith List Bool Lia.
From Verif Require Import Py Schema Registry Codec Waiter Conn NodeM AppM SpecApp AppProofs.
Import ListNotations.
Open Scope list_scope.
Open Scope string_scope.
Open Scope list_scope.
Open Scope Z_scope.

Definition ent (d : tabs) (k : key) : option nat := dget key_eqb k (fst d).
Definition obj (d : tabs) (k : key) : option nobj := match ent d k with Some i => nth_error (snd d) i | None => None end.
Lemma told_app t a b : told t (a ++ b) = told t a ++ told t b.
Proof. induction a as [|o a IH]; [reflexivity|]. destruct o; cbn; rewrite ?IH; try reflexivity. destruct (Nat.eqb t0 t); cbn; rewrite ?IH; reflexivity. Qed.
Lemma ent_lt d k i : tab_ok d -> ent d k = Some i -> (i < length (snd d))%nat.
Proof. intros T E. apply kget_in in E. destruct (to_objs _ T _ _ E) as (o & N & _). apply nth_error_Some. congruence. Qed.
Lemma ent_put t o d k : ent (fst (put t o d)) k = if key_eqb k (o_key o) then Some (length (snd d)) else ent d k.
Proof. unfold ent, put. cbn. apply kget_set. Qed.
Lemma obj_put t o d k : tab_ok d -> obj (fst (put t o d)) k = if key_eqb k (o_key o) then Some o else obj d k.
Proof.
  intros T. unfold obj. rewrite ent_put. destruct (key_eqb k (o_key o)).
  - cbn. rewrite nth_error_app2, Nat.sub_diag by lia. reflexivity.
  - destruct (ent d k) as [i|] eqn:E; [|reflexivity]. cbn. apply nth_error_app1. exact (ent_lt _ _ _ T E).
Qed.

Section Update.
Variables (t : nat) (me : Z) (d1 : tabs).
Hypothesis T1 : tab_ok d1.

Definition gone (l : list Z) : list key := map fst (filter (fun e => negb (existsb (Z.eqb (root_of d1 e)) l)) (fst d1)).
Lemma gone_spec l k : In k (gone l) <-> ent d1 k <> None /\ ~ In (fst k) l.
Proof.
  unfold gone. rewrite in_map_iff. split.
  - intros ([k' i] & <- & J). apply filter_In in J as [J F]. cbn [fst]. split; [apply kget_key, in_map_iff; exists (k', i); auto|].
    destruct (to_objs _ T1 _ _ J) as (o & N & E). unfold root_of in F. cbn [snd] in F. rewrite N in F. intros I. apply negb_true_iff in F.
    assert (X : existsb (Z.eqb (o_root o)) l = true) by (apply existsb_exists; exists (fst k'); split; [exact I|]; rewrite <- E; apply Z.eqb_refl). congruence.
  - intros [E NI]. unfold ent in E. destruct (dget key_eqb k (fst d1)) as [i|] eqn:G; [|congruence]. exists (k, i). split; [reflexivity|]. apply kget_in in G. apply filter_In. split; [exact G|].
    destruct (to_objs _ T1 _ _ G) as (o & N & EK). unfold root_of. cbn [snd]. rewrite N. apply negb_true_iff. destruct (existsb _ l) eqn:X; [|reflexivity].
    apply existsb_exists in X as (x & I & Q). apply Z.eqb_eq in Q. subst x. rewrite <- EK in NI. contradiction.
Qed.
Lemma gone_nodup l : NoDup (gone l).
Proof.
  unfold gone. pose proof (to_keys _ T1) as N. induction (fst d1) as [|e d IH]; cbn; [constructor|]. inversion N; subst. destruct (negb _); cbn; [|apply IH; assumption].
  constructor; [|apply IH; assumption]. intros J. apply H1. apply in_map_iff in J as (x & E & J). apply in_map_iff. exists x. split; [exact E|]. apply filter_In in J. tauto.
Qed.
Definition removals (l : list Z) : list news := map WRemoved (gone l) ++ unless_nil (gone l) (WRemovedAll (gone l)).

Definition counted (h : list aobs) (r c : Z) : Prop := In (OAnswer t (QCount r) (ACount c)) h.
Definition reported (h : list aobs) (d : tabs) (r : Z) : Prop :=
  exists cls bas gen spc lis c, In (OAnswer t (QInfo r) (AInfo cls bas gen spc lis)) h /\ new_node cls = Ok c /\ obj d (r, 0) = Some (mkO r 0 c bas gen spc lis None) /\
    if supports c 96 then
      exists n, counted h r n /\ forall e, 1 <= e <= n -> exists cls' gen' spc' c', In (OAnswer t (QCap r e) (ACap cls' gen' spc')) h /\ new_node cls' = Ok c' /\
          obj d (r, e) = Some (mkO r e c' 0 gen' spc' false (ent d (r, 0)))
    else forall n, ~ counted h r n.
Lemma reported_grow h d r h' d' : reported h d r -> (forall o, In o h -> In o h') -> (forall c, counted h' r c -> counted h r c) ->
  (forall e, ent d (r, e) <> None -> obj d' (r, e) = obj d (r, e)) -> (ent d (r, 0) <> None -> ent d' (r, 0) = ent d (r, 0)) -> reported h' d' r.
Proof.
  intros (cls & bas & gen & spc & lis & c & A & N & O & R) I CU OB EN.
  assert (E0 : ent d (r, 0) <> None) by (intros Q; unfold obj in O; rewrite Q in O; discriminate).
  exists cls, bas, gen, spc, lis, c. split; [apply I; exact A|]. split; [exact N|]. split; [rewrite (OB 0 E0); exact O|].
  destruct (supports c 96).
  - destruct R as (n & C & F). exists n. split; [apply I; exact C|]. intros e Le. destruct (F e Le) as (cls' & gen' & spc' & c' & A' & N' & O').
    exists cls', gen', spc', c'. split; [apply I; exact A'|]. split; [exact N'|]. rewrite (EN E0), OB; [exact O'|]. intros Q. unfold obj in O'. rewrite Q in O'. discriminate.
  - intros n C. exact (R n (CU n C)).
Qed.

(** the entries of [done] are in place; of node [n], those up to end point [hi] *)
Record loading (l done : list Z) (n hi : Z) (new : list nat) (d : tabs) (h : list aobs) : Prop := mkLoading {
  ld_tab : tab_ok d;
  ld_keys : forall r e, ent d (r, e) <> None <-> In r l /\ (ent d1 (r, e) <> None \/ ent d1 (r, 0) = None /\ r <> me /\
    (In r done /\ (e = 0 \/ exists c, counted h r c /\ 1 <= e <= c) \/ r = n /\ 0 <= e <= hi));
  ld_kept : forall r e, In r l -> ent d1 (r, 0) <> None -> ent d (r, e) = ent d1 (r, e);
  ld_old : forall r e, In r l -> ~ In r done -> ~ (r = n /\ 0 <= e <= hi) -> ent d (r, e) = ent d1 (r, e);
  ld_loaded : forall r, In r done -> In r l -> ent d1 (r, 0) = None -> r <> me -> reported h d r;
  ld_objs : exists ext, snd d = snd d1 ++ ext /\ new = seq (length (snd d1)) (length ext);
  ld_new : forall i o, (length (snd d1) <= i)%nat -> nth_error (snd d) i = Some o -> ent d (o_key o) = Some i;
  ld_count : forall r c, counted h r c -> In r done \/ r = n /\ 0 <= hi }.

Lemma loading_skip l done new d h n m : loading l done m (-1) new d h -> (ent d (n, 0) <> None \/ n = me) -> loading l (done ++ [n]) m (-1) new d h.
Proof.
  intros [T K P P' L O N C] S.
  assert (S' : In n l -> ent d1 (n, 0) = None -> n <> me -> In n done).
  { intros I E NM. destruct S as [S|S]; [|contradiction]. apply K in S as (_ & [S|(_ & _ & [(S & _)|(_ & S)])]); [contradiction|exact S|lia]. }
  constructor; auto.
  - intros r e. rewrite K. split; (intros (I & [H|(E & NM & [(D & X)|(-> & X)])]); [split; [exact I|]; auto| |lia]).
    + split; [exact I|]. right. split; [exact E|]. split; [exact NM|]. left. split; [apply in_or_app; auto|exact X].
    + split; [exact I|]. right. split; [exact E|]. split; [exact NM|]. left. split; [|exact X]. apply in_app_or in D as [D|[<-|[]]]; auto.
  - intros r e I D X. apply P'; [exact I| |exact X]. intros D'. apply D. apply in_or_app. auto.
  - intros r D I E NM. apply in_app_or in D as [D|[<-|[]]]; auto.
  - intros r c Q. destruct (C r c Q) as [D|(-> & H)]; [|lia]. left. apply in_or_app. auto.
Qed.
Lemma loading_put l done n ep new d h os c bas gen spc lis par :
  loading l done n (ep - 1) new d h -> 0 <= ep -> In n l -> ent d1 (n, 0) = None -> n <> me -> ~ In n done -> (forall r c, ~ counted os r c) ->
  loading l done n ep (new ++ [length (snd d)]) (fst (put t (mkO n ep c bas gen spc lis par) d)) (h ++ os).
Proof.
  intros [T K P P' L O N C] Lep I E NM ND NC. set (o := mkO n ep c bas gen spc lis par).
  assert (CE : forall r x, counted (h ++ os) r x <-> counted h r x).
  { intros r x. split; [|intros Q; apply in_or_app; auto]. intros Q. apply in_app_or in Q as [Q|Q]; [exact Q|destruct (NC r x Q)]. }
  constructor.
  - apply tab_ok_put. exact T.
  - intros r e. rewrite ent_put. change (o_key o) with (n, ep). destruct (key_eqb (r, e) (n, ep)) eqn:Q.
    + apply key_eqb_eq in Q. injection Q as -> ->. split; [|discriminate]. intros _. split; [exact I|]. right. split; [exact E|]. split; [exact NM|]. right. split; [reflexivity|lia].
    + rewrite K. split; (intros (J & [H|(E' & NM' & [(D & X)|(-> & X)])]); (split; [exact J|]); [auto| |]; right; (split; [exact E'|]); (split; [exact NM'|])).
      * left. split; [exact D|]. destruct X as [X|(x & Y & Z)]; [auto|]. right. exists x. split; [apply CE; exact Y|exact Z].
      * right. split; [reflexivity|lia].
      * left. split; [exact D|]. destruct X as [X|(x & Y & Z)]; [auto|]. right. exists x. split; [apply CE; exact Y|exact Z].
      * right. split; [reflexivity|]. assert (e <> ep) by (intros ->; rewrite key_eqb_refl in Q; discriminate). lia.
  - intros r e J E'. rewrite ent_put. change (o_key o) with (n, ep). rewrite key_eqb_neq; [auto|]. intros Q. injection Q as -> ->. contradiction.
  - intros r e J D X. rewrite ent_put. change (o_key o) with (n, ep). rewrite key_eqb_neq; [apply P'; [exact J|exact D|]; lia|]. intros Q. injection Q as -> ->. lia.
  - intros r D J E' NM'. assert (RN : r <> n) by (intros ->; contradiction). apply (reported_grow h d r); [auto|intros x X; apply in_or_app; auto|intros x X; apply CE; exact X| |].
    + intros e _. rewrite obj_put by exact T. change (o_key o) with (n, ep). rewrite key_eqb_neq; [reflexivity|]. intros Q. injection Q as -> ->. auto.
    + intros _. rewrite ent_put. change (o_key o) with (n, ep). rewrite key_eqb_neq; [reflexivity|]. congruence.
  - destruct O as (ext & O1 & O2). exists (ext ++ [o]). cbn. rewrite O1, app_assoc. split; [reflexivity|]. rewrite O2, !app_length, seq_app. reflexivity.
  - intros i x G NX. rewrite ent_put. change (o_key o) with (n, ep). cbn [put fst snd] in NX. destruct (Nat.ltb_spec i (length (snd d))) as [Li|Li].
    + rewrite nth_error_app1 in NX by exact Li. destruct (key_eqb (o_key x) (n, ep)) eqn:Q; [|exact (N i x G NX)]. exfalso. apply key_eqb_eq in Q. pose proof (N i x G NX) as Ex. rewrite Q in Ex.
      assert (Y : ent d (n, ep) <> None) by congruence. apply K in Y as (_ & [Y|(_ & _ & [(Y & _)|(_ & Y)])]); [|contradiction|lia].
      rewrite (P' n ep I ND) in Ex by lia. apply (ent_lt d1) in Ex; [lia|exact T1].
    + rewrite nth_error_app2 in NX by exact Li. destruct (i - length (snd d))%nat as [|j] eqn:Ei; [|destruct j; discriminate NX]. injection NX as <-. change (o_key o) with (n, ep). rewrite key_eqb_refl. f_equal. lia.
  - intros r x Q. apply CE in Q. destruct (C r x Q) as [D|(-> & H)]; [auto|]. right. split; [reflexivity|lia].
Qed.
Lemma loading_obs l done n hi new d h os : loading l done n hi new d h -> (forall r c, counted os r c -> r = n /\ 0 <= hi /\ ~ In n done) -> loading l done n hi new d (h ++ os).
Proof.
  intros [T K P P' L O N C] NC.
  assert (CE : forall r x, In r done -> counted (h ++ os) r x <-> counted h r x).
  { intros r x D. split; [|intros Q; apply in_or_app; auto]. intros Q. apply in_app_or in Q as [Q|Q]; [exact Q|]. destruct (NC r x Q) as (-> & _ & ND). contradiction. }
  constructor; auto.
  - intros r e. rewrite K. split; (intros (J & [H|(E' & NM' & [(D & X)|(-> & X)])]); (split; [exact J|]); [auto| |]; right; (split; [exact E'|]); (split; [exact NM'|])); try (right; split; [reflexivity|exact X]).
    + left. split; [exact D|]. destruct X as [X|(x & Y & Z)]; [auto|]. right. exists x. split; [apply (CE r x D); exact Y|exact Z].
    + left. split; [exact D|]. destruct X as [X|(x & Y & Z)]; [auto|]. right. exists x. split; [apply (CE r x D); exact Y|exact Z].
  - intros r D J E' NM'. apply (reported_grow h d r); auto; [intros x X; apply in_or_app; auto|]. intros x X. apply (CE r x D). exact X.
  - intros r x Q. apply in_app_or in Q as [Q|Q]; [exact (C r x Q)|]. destruct (NC r x Q) as (-> & H & _). auto.
Qed.
Lemma loading_end l done n hi new d h m : loading l done n hi new d h -> ~ In n done -> reported h d n -> (forall e, 0 <= e <= hi <-> e = 0 \/ exists c, counted h n c /\ 1 <= e <= c) ->
  loading l (done ++ [n]) m (-1) new d h.
Proof.
  intros [T K P P' L O N C] ND R Q. constructor; auto.
  - intros r e. rewrite K. split; (intros (J & [H|(E' & NM' & [(D & X)|(-> & X)])]); (split; [exact J|]); [auto| |]; try lia; right; (split; [exact E'|]); (split; [exact NM'|])).
    + left. split; [apply in_or_app; auto|exact X].
    + left. split; [apply in_or_app; right; left; reflexivity|]. apply Q. exact X.
    + apply in_app_or in D as [D|[<-|[]]]; [left; auto|]. right. split; [reflexivity|]. apply Q. exact X.
  - intros r e J D X. apply P'; [exact J|intros D'; apply D, in_or_app; auto|]. intros (-> & _). apply D, in_or_app. right. left. reflexivity.
  - intros r D J E' NM'. apply in_app_or in D as [D|[<-|[]]]; [auto|exact R].
  - intros r x X. left. apply in_or_app. destruct (C r x X) as [D|(-> & _)]; [auto|]. right. left. reflexivity.
Qed.

(** the list in use *)
Definition given (l : list Z) (h : list aobs) : Prop := In (OAnswer t QNodes (ANodes l)) h /\ forall l', In (OAnswer t QNodes (ANodes l')) h -> l' = l.
Lemma given_app l h os : given l h -> (forall l', ~ In (OAnswer t QNodes (ANodes l')) os) -> given l (h ++ os).
Proof. intros [A B] N. split; [apply in_or_app; auto|]. intros l' J. apply in_app_or in J as [J|J]; [auto|destruct (N l' J)]. Qed.
(** between two nodes *)
Definition between (l rest : list Z) (new : list nat) (d : tabs) (h : list aobs) : Prop :=
  exists done, l = done ++ rest /\ loading l done 0 (-1) new d h /\ told t h = removals l /\ given l h.
Definition partway (l : list Z) (n hi : Z) (rest : list Z) (new : list nat) (d : tabs) (h : list aobs) (done : list Z) : Prop :=
  l = done ++ n :: rest /\ loading l done n hi new d h /\ told t h = removals l /\ given l h /\ ent d1 (n, 0) = None /\ n <> me /\ ~ In n done.
Definition with_root (n : Z) (root : nat) (d : tabs) (h : list aobs) : Prop :=
  exists cls bas gen spc lis c, In (OAnswer t (QInfo n) (AInfo cls bas gen spc lis)) h /\ new_node cls = Ok c /\ obj d (n, 0) = Some (mkO n 0 c bas gen spc lis None) /\ supports c 96 = true /\ ent d (n, 0) = Some root.
Definition all_in (l : list Z) (new : list nat) (d : tabs) (h : list aobs) : Prop := loading l l 0 (-1) new d h /\ given l h.
Definition pinv (p : apc) (d : tabs) (h : list aobs) : Prop :=
  match p with
  | PList => d = d1 /\ told t h = [] /\ forall q a, ~ In (OAnswer t q a) h
  | PRemoved rest all l => exists dn, all = gone l /\ all = dn ++ rest /\ snd d = snd d1 /\ (forall k, ent d k = if existsb (key_eqb k) dn then None else ent d1 k) /\ tab_ok d /\
      told t h = map WRemoved dn /\ given l h /\ forall r c, ~ counted h r c
  | PRemovedAll l => between l l [] d h
  | PInfo n (KUpdate rest new) => exists l done, partway l n (-1) rest new d h done
  | PCount n root (KUpdate rest new) => exists l done, partway l n 0 rest (new ++ [root]) d h done /\ with_root n root d h /\ forall c, ~ counted h n c
  | PCap n root ep last got (KUpdate rest new) => exists l done, partway l n (ep - 1) rest (new ++ got) d h done /\ with_root n root d h /\ 1 <= ep <= last /\ counted h n last /\ (forall c, counted h n c -> c = last) /\
      forall e, 1 <= e < ep -> exists cls' gen' spc' c', In (OAnswer t (QCap n e) (ACap cls' gen' spc')) h /\ new_node cls' = Ok c' /\ obj d (n, e) = Some (mkO n e c' 0 gen' spc' false (Some root))
  | PAddedAll new => exists l, all_in l new d h /\ new <> [] /\ told t h = removals l ++ [WAddedAll new]
  | PAdded rest => exists l dn, all_in l (dn ++ rest) d h /\ dn <> [] /\ told t h = removals l ++ WAddedAll (dn ++ rest) :: map WAdded dn
  | PEnd (Ok _) => exists l new, all_in l new d h /\ told t h = removals l ++ unless_nil new (WAddedAll new) ++ map WAdded new
  | PEnd (Err _) => True
  | _ => False
  end.
Definition ginv (h : list aobs) (g : ago) : Prop := let '(d, os, p) := g in pinv p d (h ++ os).
Lemma ginv_then h os g : ginv (h ++ os) g -> ginv h (obs_then os g).
Proof. destruct g as [[d os'] p]. cbn. rewrite app_assoc. auto. Qed.

Definition quiet (os : list aobs) : Prop := forall q a, ~ In (OAnswer t q a) os.
Lemma quiet_counted os r c : quiet os -> ~ counted os r c. Proof. intros Q. apply Q. Qed.
Ltac qt := let J := fresh in intros ? ? J; repeat (destruct J as [J|J]; [discriminate J|]); exact J.
Lemma all_in_quiet l new d h os : all_in l new d h -> quiet os -> all_in l new d (h ++ os).
Proof. intros [L G] Q. split; [apply loading_obs; [exact L|intros r c X; destruct (Q _ _ X)]|apply given_app; [exact G|intros l'; apply Q]]. Qed.
Lemma announce_inv l new d h : all_in l new d h -> told t h = removals l -> ginv h (announce t new d).
Proof.
  intros A R. destruct new as [|o new]; cbn.
  - exists l, []. split; [apply all_in_quiet; [exact A|qt]|]. rewrite told_app, R. cbn. rewrite !app_nil_r. reflexivity.
  - exists l. split; [apply all_in_quiet; [exact A|qt]|]. split; [discriminate|]. rewrite told_app, R. cbn. rewrite Nat.eqb_refl. reflexivity.
Qed.
Lemma update_inv rest : forall l new d h, between l rest new d h -> ginv h (update_loop me t rest new d).
Proof.
  induction rest as [|n rest IH]; intros l new d h (done & EL & L & R & G); cbn [update_loop].
  - rewrite app_nil_r in EL. subst done. apply (announce_inv l); [split; assumption|exact R].
  - destruct (dmem key_eqb (n, 0) (fst d)) eqn:M.
    + apply (IH l). exists (done ++ [n]). rewrite <- app_assoc. split; [exact EL|]. split; [|auto]. apply loading_skip; [exact L|]. left. rewrite kmem_get in M. unfold ent. destruct (dget key_eqb (n, 0) (fst d)); [discriminate|discriminate M].
    + destruct (Z.eqb_spec n me) as [EQ|NM].
      * apply (IH l). exists (done ++ [n]). rewrite <- app_assoc. split; [exact EL|]. split; [|auto]. apply loading_skip; [exact L|]. right. exact EQ.
      * assert (E0 : ent d (n, 0) = None) by (rewrite kmem_get in M; unfold ent; destruct (dget key_eqb (n, 0) (fst d)); [discriminate M|reflexivity]).
        assert (IN : In n l) by (rewrite EL; apply in_or_app; right; left; reflexivity).
        assert (E1 : ent d1 (n, 0) = None).
        { destruct (ent d1 (n, 0)) eqn:Q; [|reflexivity]. assert (X : ent d (n, 0) <> None) by (apply (ld_keys _ _ _ _ _ _ _ L); split; [exact IN|left; congruence]). contradiction. }
        cbn. exists l, done. split; [exact EL|]. split; [|split; [rewrite told_app, R; cbn; apply app_nil_r|split; [apply given_app; [exact G|intros l'; revert l'; assert (Q : quiet [OQuery t (QInfo n)]) by qt; intros l'; apply Q]|split; [exact E1|split; [exact NM|]]]]].
        -- apply loading_obs; [|intros r c X; destruct X as [X|[]]; discriminate X]. destruct L as [T K P P' L O N C]. constructor; auto.
           ++ intros r e. rewrite K. split; (intros (J & [H|(E' & NM' & [(D & X)|(-> & X)])]); (split; [exact J|]); [auto| |]; try lia; right; (split; [exact E'|]); (split; [exact NM'|]); left; split; [exact D|exact X]).
           ++ intros r e J D X. apply P'; [exact J|exact D|lia].
           ++ intros r c X. destruct (C r c X) as [D|(_ & D)]; [auto|lia].
        -- intros D. assert (X : ent d (n, 0) <> None); [|contradiction]. apply (ld_keys _ _ _ _ _ _ _ L). split; [exact IN|]. right. split; [exact E1|]. split; [exact NM|]. left. split; [exact D|]. left. reflexivity.
Qed.
Lemma existsb_key k ks : existsb (key_eqb k) ks = true <-> In k ks.
Proof. rewrite existsb_exists. split; [intros (x & I & E); apply key_eqb_eq in E; subst; exact I|intros I; exists k; split; [exact I|apply key_eqb_refl]]. Qed.
Lemma removed_loading l d h : snd d = snd d1 -> (forall k, ent d k = if existsb (key_eqb k) (gone l) then None else ent d1 k) -> tab_ok d -> (forall r c, ~ counted h r c) -> loading l [] 0 (-1) [] d h.
Proof.
  intros S E T C.
  assert (IN : forall r e, In r l -> ent d (r, e) = ent d1 (r, e)).
  { intros r e I. rewrite E. destruct (existsb (key_eqb (r, e)) (gone l)) eqn:X; [|reflexivity]. apply existsb_key, gone_spec in X as [_ X]. contradiction. }
  constructor; auto.
  - intros r e. split.
    + intros X. assert (I : In r l).
      { destruct (in_dec Z.eq_dec r l) as [I|NI]; [exact I|]. exfalso. rewrite E in X. destruct (existsb (key_eqb (r, e)) (gone l)) eqn:Q; [contradiction|].
        assert (Y : existsb (key_eqb (r, e)) (gone l) = true) by (apply existsb_key, gone_spec; split; assumption). congruence. }
      split; [exact I|]. left. rewrite <- (IN r e I). exact X.
    + intros (I & [X|(_ & _ & [([] & _)|(_ & X)])]); [rewrite (IN r e I); exact X|lia].
  - intros r [].
  - exists []. rewrite app_nil_r. split; [exact S|reflexivity].
  - intros i o G N. rewrite S in N. exfalso. apply (proj2 (nth_error_None _ _)) in G. congruence.
  - intros r c X. destruct (C r c X).
Qed.
Lemma remove_inv rest l d h : pinv (PRemoved rest (gone l) l) d h -> ginv h (remove me t rest (gone l) l d).
Proof.
  intros (dn & _ & EG & S & E & T & R & G & C). destruct rest as [|k rest]; cbn [remove].
  - rewrite app_nil_r in EG. subst dn. pose proof (removed_loading l d h S E T C) as L. destruct (gone l) as [|k0 ks] eqn:EK.
    + apply (update_inv l l). exists []. split; [reflexivity|]. split; [exact L|]. split; [|exact G]. unfold removals. rewrite EK, R. reflexivity.
    + cbn. exists []. split; [reflexivity|]. split; [apply loading_obs; [exact L|intros r c [X|[]]; discriminate X]|]. split; [|apply given_app; [exact G|intros l' [X|[]]; discriminate X]].
      unfold removals. rewrite EK, told_app, R. cbn. rewrite Nat.eqb_refl. reflexivity.
  - assert (ND : NoDup (dn ++ k :: rest)) by (rewrite <- EG; apply gone_nodup). apply NoDup_remove_2 in ND.
    assert (KG : In k (gone l)) by (rewrite EG; apply in_or_app; right; left; reflexivity). apply gone_spec in KG as [KE _].
    assert (KD : ent d k <> None).
    { rewrite E. destruct (existsb (key_eqb k) dn) eqn:X; [|exact KE]. apply existsb_key in X. exfalso. apply ND, in_or_app. auto. }
    rewrite kmem_get. unfold ent in KD. destruct (dget key_eqb k (fst d)) as [i|] eqn:EI; [|contradiction]. cbn. exists (dn ++ [k]). split; [reflexivity|]. split; [rewrite <- app_assoc; exact EG|]. split; [exact S|].
    split; [|split; [apply tab_ok_del; exact T|split; [|split]]].
    + intros k'. unfold ent at 1. cbn [fst]. rewrite kget_del, existsb_app. cbn. rewrite orb_false_r. fold (ent d k'). rewrite E. destruct (key_eqb k' k); [rewrite orb_true_r; reflexivity|rewrite orb_false_r; reflexivity].
    + rewrite told_app, R. cbn. rewrite Nat.eqb_refl, map_app. reflexivity.
    + apply given_app; [exact G|]. intros l' [X|[X|[]]]; discriminate X.
    + intros r c X. apply in_app_or in X as [X|X]; [destruct (C r c X)|]. destruct X as [X|[X|[]]]; discriminate X.
Qed.
Lemma finish_inv l n hi rest new d h done : partway l n hi rest new d h done -> reported h d n -> (forall e, 0 <= e <= hi <-> e = 0 \/ exists c, counted h n c /\ 1 <= e <= c) ->
  ginv h (update_loop me t rest new d).
Proof.
  intros (EL & L & R & G & E1 & NM & ND) RP Q. apply (update_inv rest l). exists (done ++ [n]). rewrite <- app_assoc. split; [exact EL|]. split; [|auto]. eapply loading_end; eassumption.
Qed.
Lemma partway_obs l n hi rest new d h done os : partway l n hi rest new d h done -> (forall r c, counted os r c -> r = n /\ 0 <= hi) -> told t os = [] -> (forall l', ~ In (OAnswer t QNodes (ANodes l')) os) ->
  partway l n hi rest new d (h ++ os) done.
Proof.
  intros (EL & L & R & G & E1 & NM & ND) C TO NG. split; [exact EL|]. split; [apply loading_obs; [exact L|]; intros r c X; destruct (C r c X); auto|]. split; [rewrite told_app, R, TO; apply app_nil_r|]. split; [apply given_app; assumption|auto].
Qed.
Lemma partway_put l n ep rest new d h done os c bas gen spc lis par : partway l n (ep - 1) rest new d h done -> 0 <= ep -> (forall r c, ~ counted os r c) -> told t os = [] -> (forall l', ~ In (OAnswer t QNodes (ANodes l')) os) ->
  partway l n ep rest (new ++ [length (snd d)]) (fst (put t (mkO n ep c bas gen spc lis par) d)) (h ++ os) done.
Proof.
  intros (EL & L & R & G & E1 & NM & ND) Lep C TO NG. split; [exact EL|]. split; [apply loading_put; auto; rewrite EL; apply in_or_app; right; left; reflexivity|]. split; [rewrite told_app, R, TO; apply app_nil_r|]. split; [apply given_app; assumption|auto].
Qed.
Lemma info_inv n rest new d h cls bas gen spc lis : pinv (PInfo n (KUpdate rest new)) d h ->
  ginv h (obs_then [OAnswer t (QInfo n) (AInfo cls bas gen spc lis)] (with_info me t n cls bas gen spc lis (KUpdate rest new) d)).
Proof.
  intros (l & done & PW). unfold with_info. destruct (new_node cls) as [c|e] eqn:NN; [|exact I].
  set (o := mkO n 0 c bas gen spc lis None). set (an := OAnswer t (QInfo n) (AInfo cls bas gen spc lis)).
  pose proof (ld_tab _ _ _ _ _ _ _ (proj1 (proj2 PW))) as T.
  assert (NC : forall x, ~ counted h n x).
  { intros x X. destruct PW as (_ & L & _ & _ & _ & _ & ND). destruct (ld_count _ _ _ _ _ _ _ L n x X) as [D|(_ & D)]; [contradiction|lia]. }
  assert (OB : obj (fst (put t o d)) (n, 0) = Some o) by (rewrite obj_put by exact T; change (o_key o) with (n, 0); rewrite key_eqb_refl; reflexivity).
  assert (EN : ent (fst (put t o d)) (n, 0) = Some (length (snd d))) by (rewrite ent_put; change (o_key o) with (n, 0); rewrite key_eqb_refl; reflexivity).
  destruct (put t o d) as [d' po] eqn:EP. assert (EPO : po = OPut t (n, 0) (length (snd d))) by (unfold put in EP; injection EP as _ <-; reflexivity). subst po. cbn [fst] in OB, EN.
  assert (PP : forall os, told t os = [] -> quiet os -> partway l n 0 rest (new ++ [length (snd d)]) d' (h ++ an :: os) done).
  { intros os TO Q. replace d' with (fst (put t o d)) by (rewrite EP; reflexivity). apply partway_put; [exact PW|lia| |cbn; exact TO|].
    - intros r x [X|X]; [discriminate X|exact (Q _ _ X)].
    - intros l' [X|X]; [discriminate X|exact (Q _ _ X)]. }
  destruct (supports c 96) eqn:SU.
  - cbn. exists l, done. split; [apply PP; [reflexivity|qt]|]. split.
    + exists cls, bas, gen, spc, lis, c. split; [apply in_or_app; right; left; reflexivity|]. auto.
    + intros x X. apply in_app_or in X as [X|X]; [exact (NC x X)|]. destruct X as [X|[X|[X|[]]]]; discriminate X.
  - cbn [loaded]. apply ginv_then, (ginv_then _ [_]). rewrite <- app_assoc. cbn [List.app]. apply (finish_inv l n 0 rest _ d' _ done).
    + apply PP; [reflexivity|qt].
    + exists cls, bas, gen, spc, lis, c. split; [apply in_or_app; right; left; reflexivity|]. split; [exact NN|]. split; [exact OB|]. rewrite SU.
      intros x X. apply in_app_or in X as [X|X]; [exact (NC x X)|]. destruct X as [X|[X|[]]]; discriminate X.
    + intros e. split; [intros; left; lia|]. intros [->|(x & X & _)]; [lia|]. apply in_app_or in X as [X|X]; [destruct (NC x X)|]. destruct X as [X|[X|[]]]; discriminate X.
Qed.
Lemma caps_inv n root ep last got rest new d h l done : partway l n (ep - 1) rest (new ++ got) d h done -> with_root n root d h -> 1 <= ep -> (1 <= last -> ep <= last + 1) -> (last < 1 -> ep = 1) -> counted h n last -> (forall c, counted h n c -> c = last) ->
  (forall e, 1 <= e < ep -> exists cls' gen' spc' c', In (OAnswer t (QCap n e) (ACap cls' gen' spc')) h /\ new_node cls' = Ok c' /\ obj d (n, e) = Some (mkO n e c' 0 gen' spc' false (Some root))) ->
  ginv h (caps me t n root ep last got (KUpdate rest new) d).
Proof.
  intros PW WR L1 L2 L3 CO CU F. unfold caps. destruct (Z.leb_spec ep last) as [Le|Gt].
  - cbn. assert (QT : quiet [OQuery t (QCap n ep)]) by qt. exists l, done. split; [apply partway_obs; [exact PW|intros r c X; destruct (QT _ _ X)|reflexivity|intros l'; apply QT]|]. split; [|split; [lia|split; [apply in_or_app; auto|split]]].
    + destruct WR as (cls & bas & gen & spc & lis & c & A & B). exists cls, bas, gen, spc, lis, c. split; [apply in_or_app; auto|exact B].
    + intros c X. apply in_app_or in X as [X|X]; [auto|destruct (QT _ _ X)].
    + intros e Le'. destruct (F e Le') as (cls' & gen' & spc' & c' & A & B). exists cls', gen', spc', c'. split; [apply in_or_app; auto|exact B].
  - cbn [loaded]. apply (finish_inv l n (ep - 1) rest _ d h done).
    + exact PW.
    + destruct WR as (cls & bas & gen & spc & lis & c & A & B & O & SU & EN). exists cls, bas, gen, spc, lis, c. split; [exact A|]. split; [exact B|]. split; [exact O|]. rewrite SU. exists last. split; [exact CO|]. intros e Le. rewrite EN. apply F. lia.
    + intros e. split.
      * intros Le. destruct (Z.eq_dec e 0); [auto|]. right. exists last. split; [exact CO|]. lia.
      * intros [->|(x & X & Le)]; [lia|]. rewrite (CU x X) in Le. lia.
Qed.
Lemma cap_inv n root ep last got rest new d h cls gen spc : pinv (PCap n root ep last got (KUpdate rest new)) d h ->
  ginv h (obs_then [OAnswer t (QCap n ep) (ACap cls gen spc)] (with_cap me t n root ep last got cls gen spc (KUpdate rest new) d)).
Proof.
  intros (l & done & PW & WR & LE & CO & CU & F). unfold with_cap. destruct (new_node cls) as [c|e] eqn:NN; [|exact I].
  set (o := mkO n ep c 0 gen spc false (Some root)). set (an := OAnswer t (QCap n ep) (ACap cls gen spc)).
  pose proof (ld_tab _ _ _ _ _ _ _ (proj1 (proj2 PW))) as T.
  assert (OB : forall e, obj (fst (put t o d)) (n, e) = if key_eqb (n, e) (n, ep) then Some o else obj d (n, e)) by (intros e; rewrite obj_put by exact T; reflexivity).
  assert (EN : ent (fst (put t o d)) (n, 0) = ent d (n, 0)) by (rewrite ent_put; change (o_key o) with (n, ep); rewrite key_eqb_neq; [reflexivity|]; intros X; injection X as X; lia).
  destruct (put t o d) as [d' po] eqn:EP. assert (EPO : po = OPut t (n, ep) (length (snd d))) by (unfold put in EP; injection EP as _ <-; reflexivity). subst po. cbn [fst] in OB, EN.
  apply ginv_then, (ginv_then _ [_]). rewrite <- app_assoc. cbn [List.app].
  assert (QC : forall r x, ~ counted [an; OPut t (n, ep) (length (snd d))] r x) by (intros r x [X|[X|[]]]; discriminate X).
  apply (caps_inv n root (ep + 1) last _ rest new d' _ l done).
  - replace (ep + 1 - 1) with ep by lia. rewrite app_assoc. replace d' with (fst (put t o d)) by (rewrite EP; reflexivity). apply partway_put; [exact PW|lia|exact QC|reflexivity|]. intros l' [X|[X|[]]]; discriminate X.
  - destruct WR as (cls0 & bas0 & gen0 & spc0 & lis0 & c0 & A & B & O & SU & E0). exists cls0, bas0, gen0, spc0, lis0, c0. split; [apply in_or_app; auto|]. split; [exact B|]. rewrite OB, key_eqb_neq by (intros X; injection X as X; lia). rewrite EN. auto.
  - lia.
  - lia.
  - lia.
  - apply in_or_app. auto.
  - intros x X. apply in_app_or in X as [X|X]; [auto|destruct (QC _ _ X)].
  - intros e Le. rewrite OB. destruct (Z.eq_dec e ep) as [->|NE].
    + rewrite key_eqb_refl. exists cls, gen, spc, c. split; [apply in_or_app; right; left; reflexivity|]. split; [exact NN|reflexivity].
    + rewrite key_eqb_neq by congruence. destruct (F e ltac:(lia)) as (cls' & gen' & spc' & c' & A & B). exists cls', gen', spc', c'. split; [apply in_or_app; auto|exact B].
Qed.
Lemma resume_inv p a d h g : pinv p d h -> aresume me t p a d = Some g -> ginv h g.
Proof.
  intros P H. destruct p, a; try discriminate H; try (destruct P; fail); cbn [aresume] in H; try (injection H as <-); try (cbn in P; destruct P; fail).
  - destruct P as (-> & R & Q). apply ginv_then. unfold with_list. fold (gone l). apply remove_inv. exists []. split; [reflexivity|]. split; [reflexivity|]. split; [reflexivity|]. split; [reflexivity|]. split; [exact T1|].
    split; [rewrite told_app, R; reflexivity|]. split; [split; [apply in_or_app; right; left; reflexivity|]|].
    + intros l' X. apply in_app_or in X as [X|[X|[]]]; [destruct (Q _ _ X)|injection X as <-; reflexivity].
    + intros r c X. apply in_app_or in X as [X|[X|[]]]; [destruct (Q _ _ X)|discriminate X].
  - assert (EG : all = gone l) by (destruct P as (dn & E & _); exact E). subst all. apply remove_inv. exact P.
  - cbn in P. apply (update_inv l l). exact P.
  - destruct k as [|rest new|rest]; try (destruct P; fail). apply info_inv. exact P.
  - destruct k as [|rest new|rest]; try (destruct P; fail). destruct P as (l & done & PW & WR & NC). apply ginv_then.
    set (an := OAnswer t (QCount n) (ACount n0)).
    assert (QC : forall r x, counted [an] r x -> r = n /\ x = n0) by (intros r x [X|[]]; injection X as <- <-; auto).
    apply (caps_inv n root 1 n0 [root] rest new d _ l done).
    + apply partway_obs; [exact PW|intros r c X; destruct (QC _ _ X); split; [assumption|lia]|reflexivity|intros l' [X|[]]; discriminate X].
    + destruct WR as (cls & bas & gen & spc & lis & c & A & B). exists cls, bas, gen, spc, lis, c. split; [apply in_or_app; auto|exact B].
    + lia.
    + lia.
    + lia.
    + apply in_or_app. right. left. reflexivity.
    + intros c X. apply in_app_or in X as [X|X]; [destruct (NC c X)|]. apply QC in X. apply X.
    + intros e Le. lia.
  - destruct k as [|rest new|rest]; try (destruct P; fail). apply cap_inv. exact P.
  - destruct P as (l & A & NN & R). destruct new as [|o new]; [contradiction|]. cbn. exists l, [o]. split; [apply all_in_quiet; [exact A|qt]|]. split; [discriminate|]. rewrite told_app, R. cbn. rewrite Nat.eqb_refl, <- app_assoc. reflexivity.
  - destruct P as (l & dn & A & NN & R). destruct rest as [|o rest]; cbn.
    + exists l, dn. rewrite app_nil_r in A, R. split; [apply all_in_quiet; [exact A|qt]|]. rewrite told_app, R. cbn. rewrite app_nil_r. destruct dn; [contradiction|reflexivity].
    + exists l, (dn ++ [o]). rewrite <- app_assoc. cbn [List.app]. split; [apply all_in_quiet; [exact A|qt]|]. split; [destruct dn; discriminate|]. rewrite told_app, R. cbn. rewrite Nat.eqb_refl, map_app, <- app_assoc. reflexivity.
Qed.
End Update.

Lemma update_exec es1 s1 a t : aexec app0 es1 s1 a -> (length (a_tasks s1) <= t)%nat -> forall es s b, aexec s1 es s b -> same_id es -> unmixed t (a ++ b) b ->
  a_me s = a_me s1 /\ ((length (a_tasks s) <= t)%nat -> tabs_of s = tabs_of s1 /\ own t b = []) /\
  forall p, nth_error (a_tasks s) t = Some (mkAT AUpdate p) -> pinv t (a_me s1) (tabs_of s1) p (tabs_of s) (own t b).
Proof.
  intros X1 LT es s b X. pose proof (wf_tab _ (wf_exec _ _ _ _ X1 wf0)) as T1. induction X as [|es s b e s' os X IH S]; intros SI UM.
  - split; [reflexivity|]. split; [auto|]. intros p N. exfalso. apply nth_error_None in LT. congruence.
  - assert (SI' : same_id es) by (intros z J; apply (SI z), in_or_app; auto).
    assert (UM' : unmixed t (a ++ b) b).
    { intros o c J N C. apply (UM o c); [apply in_or_app; auto|exact N|]. apply in_app_or in C as [C|C]; apply in_or_app; [auto|]. right. apply in_or_app. auto. }
    destruct (IH SI' UM') as (ME & A & B). clear IH. pose proof (aexec_app _ _ _ _ _ _ _ X1 X) as XX. pose proof (wf_exec _ _ _ _ XX wf0) as [WT WF]. destruct (calls_exec _ _ _ _ XX) as (_ & _ & _ & _ & CI).
    apply astep_case in S. destruct S as [z|c d os p E|u c p x d os p' N E|u c p x N NE].
    + exfalso. apply (SI z), in_or_app. right. left. reflexivity.
    + pose proof (start_keeps (a_me s) (length (a_tasks s)) c (tabs_of s)) as K. rewrite E in K. cbn in K. subst d.
      pose proof (by_begin (a_me s) (length (a_tasks s)) c (tabs_of s)) as BM. rewrite E in BM. unfold by_t in BM. cbn in BM.
      change (tabs_of (mkA (a_me s) (fst (tabs_of s)) (snd (tabs_of s)) (a_tasks s ++ [mkAT c p]))) with (tabs_of s). split; [exact ME|]. rewrite own_app. cbn [a_tasks]. split.
      * rewrite app_length. cbn [length]. intros L. destruct (A ltac:(lia)) as [A1 A2]. split; [exact A1|]. rewrite A2. rewrite ?own_cons; cbn [who]. destruct (Nat.eqb_spec (length (a_tasks s)) t); [lia|]. apply (own_other t _ os BM). assumption.
      * intros q. rewrite nth_snoc'. destruct (Nat.eqb_spec t (length (a_tasks s))) as [->|NE].
        -- intros H. injection H as -> ->. cbn in E. injection E as <- <-. destruct (A ltac:(lia)) as [A1 A2]. rewrite A2. cbn. rewrite Nat.eqb_refl. cbn. split; [exact A1|]. split; [reflexivity|]. intros r y [J|[J|[]]]; discriminate.
        -- intros H. specialize (B q H). rewrite ?own_cons; cbn [who]. destruct (Nat.eqb_spec (length (a_tasks s)) t); [congruence|]. rewrite (own_other t _ os BM), app_nil_r; [exact B|assumption].
    + pose proof (by_resume _ _ _ _ _ _ E) as BM. unfold by_t in BM. cbn in BM. pose proof (shape_resume _ _ _ _ _ _ E) as (NN & _ & _). cbn in NN.
      assert (ED : tabs_of (mkA (a_me s) (fst d) (snd d) (upd u (mkAT c p') (a_tasks s))) = d) by (destruct d; reflexivity). rewrite ED, own_app. split; [exact ME|]. cbn [a_tasks]. rewrite upd_length.
      destruct (Nat.eq_dec u t) as [->|NU].
      * split; [intros L; apply nth_error_None in L; congruence|]. intros q. rewrite (nth_upd' _ _ _ _ N), Nat.eqb_refl. intros H. injection H as -> <-. rewrite (own_mine t os BM).
        rewrite <- ME in B |- *. pose proof (resume_inv t (a_me s) (tabs_of s1) T1 _ _ _ _ _ (B p N) E) as G. exact G.
      * assert (EQ : d = tabs_of s).
        { destruct os as [|o os]; [contradiction|]. apply Forall_inv in BM as MO. apply mine_who in MO. assert (C : changes c = false).
          { apply (UM o); [apply in_or_app; right; left; reflexivity|congruence|]. rewrite MO. rewrite app_assoc. apply in_or_app. left. apply (CI u c p); [cbn; lia|exact N]. }
          exact (message_keeps _ _ _ _ _ _ _ (WF _ _ _ N) C E). }
        rewrite (own_other t u os BM NU), app_nil_r, EQ. split; [exact A|]. intros q. rewrite (nth_upd' _ _ _ _ N). destruct (Nat.eqb_spec t u); [congruence|apply B].
    + change (tabs_of (mkA (a_me s) (a_tab s) (a_objs s) (upd u (mkAT c (PEnd (Err x))) (a_tasks s)))) with (tabs_of s). split; [exact ME|]. cbn [a_tasks]. rewrite upd_length, own_app. rewrite ?own_cons; cbn [who]. split.
      * intros L. destruct (Nat.eqb_spec u t) as [->|NU]; [apply nth_error_None in L; congruence|]. rewrite app_nil_r. auto.
      * intros q. rewrite (nth_upd' _ _ _ _ N). destruct (Nat.eqb_spec t u) as [->|NU]; [intros H; injection H as -> <-; exact I|]. destruct (Nat.eqb_spec u t); [congruence|]. rewrite app_nil_r. apply B.
Qed.

Lemma obj_object s k : obj (tabs_of s) k = object s k. Proof. reflexivity. Qed.
Theorem update_done es1 s1 a es s b t l v : aexec app0 es1 s1 a -> aexec s1 es s b -> same_id es -> unmixed t (a ++ b) b ->
  In (OCalled t AUpdate) b -> In (OAnswer t QNodes (ANodes l)) b -> In (ODone t (Ok v)) b ->
  (forall r e, entry s (r, e) <> None <-> In r l /\ (entry s1 (r, e) <> None \/ entry s1 (r, 0) = None /\ r <> a_me s1 /\ (e = 0 \/ exists c, In (OAnswer t (QCount r) (ACount c)) b /\ 1 <= e <= c))) /\
  (forall r e, In r l -> entry s1 (r, 0) <> None -> entry s (r, e) = entry s1 (r, e) /\ object s (r, e) = object s1 (r, e)) /\
  (forall r, In r l -> entry s1 (r, 0) = None -> r <> a_me s1 -> as_reported t b s r) /\
  (exists removed new, told t b = map WRemoved removed ++ unless_nil removed (WRemovedAll removed) ++ unless_nil new (WAddedAll new) ++ map WAdded new /\
    NoDup removed /\ (forall k, In k removed <-> entry s1 k <> None /\ ~ In (fst k) l) /\
    NoDup new /\ (forall i, In i new <-> (length (a_objs s1) <= i)%nat /\ exists k, entry s k = Some i)).
Proof.
  intros X1 X SI UM CA AN DO.
  destruct (calls_exec _ _ _ _ X) as (_ & _ & _ & CC & _). destruct (CC _ _ CA) as (LT & p0 & N0). destruct (done_exec _ _ _ _ X _ _ DO) as (c & N). rewrite N0 in N. injection N as <- ->.
  destruct (update_exec _ _ _ t X1 LT _ _ _ X SI UM) as (_ & _ & P). specialize (P _ N0). destruct P as (l' & new & [[T K KP _ LD OB NW CO] [G1 G2]] & TO).
  assert (l' = l) by (symmetry; apply G2; apply own_in; [reflexivity|exact AN]). subst l'.
  assert (CN : forall r c, counted t (own t b) r c <-> In (OAnswer t (QCount r) (ACount c)) b) by (intros r c; symmetry; apply own_in; reflexivity).
  pose proof (wf_tab _ (wf_exec _ _ _ _ X1 wf0)) as T1.
  assert (KEEP : forall r e, In r l -> entry s1 (r, 0) <> None -> entry s (r, e) = entry s1 (r, e)) by exact KP.
  split; [|split; [|split]].
  - intros r e. specialize (K r e). change (ent (tabs_of s) (r, e)) with (entry s (r, e)) in K. change (ent (tabs_of s1) (r, e)) with (entry s1 (r, e)) in K. change (ent (tabs_of s1) (r, 0)) with (entry s1 (r, 0)) in K. rewrite K.
    split; (intros (J & [H|(E & NM & Q)]); (split; [exact J|]); [auto|]; right; (split; [exact E|]); (split; [exact NM|])).
    + destruct Q as [(_ & [Q|(x & Q & L)])|(_ & Q)]; [auto|right; exists x; split; [apply CN; exact Q|exact L]|lia].
    + left. split; [exact J|]. destruct Q as [Q|(x & Q & L)]; [auto|]. right. exists x. split; [apply CN; exact Q|exact L].
  - intros r e J E. split; [auto|]. unfold object. rewrite (KEEP r e J E). destruct (entry s1 (r, e)) as [i|] eqn:EI; [|reflexivity]. destruct OB as (ext & OB & _). cbn in OB. rewrite OB. apply nth_error_app1. exact (ent_lt (tabs_of s1) _ _ T1 EI).
  - intros r J E NM. destruct (LD r J J E NM) as (cls & bas & gen & spc & lis & c & A & NN & O & R). exists cls, bas, gen, spc, lis, c. split; [apply (own_in t) in A; [exact A|reflexivity]|]. split; [exact NN|]. split; [exact O|].
    destruct (supports c 96).
    + destruct R as (n & C & F). exists n. split; [apply CN; exact C|]. intros e Le. destruct (F e Le) as (cls' & gen' & spc' & c' & A' & NN' & O'). exists cls', gen', spc', c'. split; [apply (own_in t) in A'; [exact A'|reflexivity]|]. auto.
    + intros n C. apply (R n). apply CN. exact C.
  - exists (gone (tabs_of s1) l), new. rewrite <- (told_own t b), TO. unfold removals. rewrite <- app_assoc. split; [reflexivity|]. split; [apply gone_nodup; exact T1|]. split; [intros k; apply (gone_spec (tabs_of s1) T1)|].
    destruct OB as (ext & OB & ->). cbn in OB. split; [apply seq_NoDup|]. intros i. rewrite in_seq. cbn [tabs_of snd]. split.
    + intros [L1 L2]. split; [exact L1|]. destruct (nth_error (a_objs s) i) as [o|] eqn:NO; [|apply nth_error_None in NO; rewrite OB, app_length in NO; lia]. exists (o_key o). exact (NW i o L1 NO).
    + intros [L1 (k & E)]. split; [exact L1|]. apply (ent_lt (tabs_of s)) in E; [|exact T]. cbn in E. rewrite OB, app_length in E. lia.
Qed.
