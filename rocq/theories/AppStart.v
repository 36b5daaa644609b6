(** The application's start-up, not mixed with anything that changes the table (C78). *)
From Coq Require Import String ZArith List Bool Lia.
From Verif Require Import Py Schema Registry Codec Waiter Conn NodeM AppM SpecApp AppProofs AppUpdate.
Import ListNotations.
Open Scope list_scope.
Open Scope string_scope.
Open Scope list_scope.
Open Scope Z_scope.

Section Start.
Variables (t : nat) (me : Z) (d1 : tabs).
Hypothesis T1 : tab_ok d1.
Hypothesis E1 : fst d1 = [].

Notation loading := (loading t me d1).
Notation partway := (partway t me d1).
Notation with_root := (with_root t).
Notation all_in := (all_in t me d1).
Notation counted := (counted t).
Notation given := (given t).
Notation quiet := (quiet t).
Ltac qt := let J := fresh in intros ? ? J; repeat (destruct J as [J|J]; [discriminate J|]); exact J.

Lemma empty k : ent d1 k = None. Proof. unfold ent. rewrite E1. reflexivity. Qed.
Lemma no_removals l : removals d1 l = []. Proof. unfold removals, gone. rewrite E1. reflexivity. Qed.
Definition ids (d : tabs) : list nat := map snd (fst d).
Definition started (d : tabs) (h : list aobs) (w : list news) : Prop := exists l new, all_in l new d h /\ told t h = w.
Definition sinv (p : apc) (d : tabs) (h : list aobs) : Prop :=
  match p with
  | PStartList => d = d1 /\ told t h = [] /\ forall q a, ~ In (OAnswer t q a) h
  | PInfo n (KStart rest) => exists l done new, NoDup l /\ partway l n (-1) rest new d h done
  | PCount n root (KStart rest) => exists l done new, NoDup l /\ partway l n 0 rest new d h done /\ with_root n root d h /\ forall c, ~ counted h n c
  | PCap n root ep last got (KStart rest) => exists l done new, NoDup l /\ partway l n (ep - 1) rest new d h done /\ with_root n root d h /\ 1 <= ep <= last /\ counted h n last /\ (forall c, counted h n c -> c = last) /\
      forall e, 1 <= e < ep -> exists cls' gen' spc' c', In (OAnswer t (QCap n e) (ACap cls' gen' spc')) h /\ new_node cls' = Ok c' /\ obj d (n, e) = Some (mkO n e c' 0 gen' spc' false (Some root))
  | PFailed => started d h []
  | PStartAll => started d h [WAddedAll (ids d)]
  | PStartEach rest size => size = length (fst d) /\ exists dn, ids d = dn ++ rest /\ started d h (WAddedAll (ids d) :: map WAdded dn)
  | PEnd (Ok _) => started d h (WAddedAll (ids d) :: map WAdded (ids d))
  | PEnd (Err _) => True
  | _ => False
  end.
Definition sgo (h : list aobs) (g : ago) : Prop := let '(d, os, p) := g in sinv p d (h ++ os).
Lemma sgo_then h os g : sgo (h ++ os) g -> sgo h (obs_then os g).
Proof. destruct g as [[d os'] p]. cbn. rewrite app_assoc. auto. Qed.
Lemma quiet_loading l done n hi new d h os : loading l done n hi new d h -> quiet os -> loading l done n hi new d (h ++ os).
Proof. intros L Q. apply loading_obs; [exact L|]. intros r c X. destruct (Q _ _ X). Qed.
Lemma started_quiet d h os w : started d h w -> quiet os -> started d (h ++ os) (w ++ told t os).
Proof. intros (l & new & A & R) Q. exists l, new. split; [apply all_in_quiet; assumption|]. rewrite told_app, R. reflexivity. Qed.
Definition sbetween (l rest : list Z) (d : tabs) (h : list aobs) : Prop := exists done new, l = done ++ rest /\ NoDup l /\ loading l done 0 (-1) new d h /\ told t h = [] /\ given l h.
Lemma start_inv rest : forall l d h, sbetween l rest d h -> sgo h (start_loop me t rest d).
Proof.
  induction rest as [|n rest IH]; intros l d h (done & new & EL & ND & L & R & G); cbn [start_loop].
  - rewrite app_nil_r in EL. subst done. cbn. exists l, new. split; [apply all_in_quiet; [split; assumption|qt]|]. rewrite told_app, R. reflexivity.
  - destruct (Z.eqb_spec n me) as [EQ|NM].
    + apply (IH l). exists (done ++ [n]), new. rewrite <- app_assoc. split; [exact EL|]. split; [exact ND|]. split; [|auto]. apply loading_skip; [exact L|]. right. exact EQ.
    + assert (NI : ~ In n done). { rewrite EL in ND. apply NoDup_remove_2 in ND. intros D. apply ND, in_or_app. auto. }
      cbn. exists l, done, new. split; [exact ND|]. split; [exact EL|]. split; [|split; [rewrite told_app, R, no_removals; reflexivity|split; [apply given_app; [exact G|intros l' [X|[]]; discriminate X]|split; [apply empty|split; [exact NM|exact NI]]]]].
      apply quiet_loading; [|qt]. destruct L as [T K P P' L O N C]. constructor; auto.
      * intros r e. rewrite K. split; (intros (J & [H|(E' & NM' & [(D & X)|(-> & X)])]); (split; [exact J|]); [auto| |]; try lia; right; (split; [exact E'|]); (split; [exact NM'|]); left; split; [exact D|exact X]).
      * intros r e J D X. apply P'; [exact J|exact D|lia].
      * intros r c X. destruct (C r c X) as [D|(_ & D)]; [auto|lia].
Qed.
Lemma sfinish_inv l n hi rest new d h done : NoDup l -> partway l n hi rest new d h done -> reported t h d n -> (forall e, 0 <= e <= hi <-> e = 0 \/ exists c, counted h n c /\ 1 <= e <= c) ->
  sgo h (start_loop me t rest d).
Proof.
  intros ND (EL & L & R & G & E0 & NM & NI) RP Q. apply (start_inv rest l). exists (done ++ [n]), new. rewrite <- app_assoc. split; [exact EL|]. split; [exact ND|]. split; [|rewrite no_removals in R; auto]. eapply loading_end; eassumption.
Qed.
Lemma sinfo_inv n rest d h cls bas gen spc lis : sinv (PInfo n (KStart rest)) d h ->
  sgo h (obs_then [OAnswer t (QInfo n) (AInfo cls bas gen spc lis)] (with_info me t n cls bas gen spc lis (KStart rest) d)).
Proof.
  intros (l & done & new & NDL & PW). unfold with_info. destruct (new_node cls) as [c|e] eqn:NN; [|exact I].
  set (o := mkO n 0 c bas gen spc lis None). set (an := OAnswer t (QInfo n) (AInfo cls bas gen spc lis)).
  pose proof (ld_tab _ _ _ _ _ _ _ _ _ _ (proj1 (proj2 PW))) as T.
  assert (NC : forall x, ~ counted h n x).
  { intros x X. destruct PW as (_ & L & _ & _ & _ & _ & ND). destruct (ld_count _ _ _ _ _ _ _ _ _ _ L n x X) as [D|(_ & D)]; [contradiction|lia]. }
  assert (OB : obj (fst (put t o d)) (n, 0) = Some o) by (rewrite obj_put by exact T; change (o_key o) with (n, 0); rewrite key_eqb_refl; reflexivity).
  assert (EN : ent (fst (put t o d)) (n, 0) = Some (length (snd d))) by (rewrite ent_put; change (o_key o) with (n, 0); rewrite key_eqb_refl; reflexivity).
  destruct (put t o d) as [d' po] eqn:EP. assert (EPO : po = OPut t (n, 0) (length (snd d))) by (unfold put in EP; injection EP as _ <-; reflexivity). subst po. cbn [fst] in OB, EN.
  assert (PP : forall os, told t os = [] -> quiet os -> partway l n 0 rest (new ++ [length (snd d)]) d' (h ++ an :: os) done).
  { intros os TO Q. replace d' with (fst (put t o d)) by (rewrite EP; reflexivity). apply partway_put; [exact T1|exact PW|lia| |cbn; exact TO|].
    - intros r x [X|X]; [discriminate X|exact (Q _ _ X)].
    - intros l' [X|X]; [discriminate X|exact (Q _ _ X)]. }
  destruct (supports c 96) eqn:SU.
  - cbn. exists l, done, (new ++ [length (snd d)]). split; [exact NDL|]. split; [apply PP; [reflexivity|qt]|]. split.
    + exists cls, bas, gen, spc, lis, c. split; [apply in_or_app; right; left; reflexivity|]. auto.
    + intros x X. apply in_app_or in X as [X|X]; [exact (NC x X)|]. destruct X as [X|[X|[X|[]]]]; discriminate X.
  - cbn [loaded]. apply sgo_then, (sgo_then _ [_]). rewrite <- app_assoc. cbn [List.app]. apply (sfinish_inv l n 0 rest (new ++ [length (snd d)]) d' _ done NDL).
    + apply PP; [reflexivity|qt].
    + exists cls, bas, gen, spc, lis, c. split; [apply in_or_app; right; left; reflexivity|]. split; [exact NN|]. split; [exact OB|]. rewrite SU.
      intros x X. apply in_app_or in X as [X|X]; [exact (NC x X)|]. destruct X as [X|[X|[]]]; discriminate X.
    + intros e. split; [intros; left; lia|]. intros [->|(x & X & _)]; [lia|]. apply in_app_or in X as [X|X]; [destruct (NC x X)|]. destruct X as [X|[X|[]]]; discriminate X.
Qed.
Lemma scaps_inv n root ep last got rest new d h l done : NoDup l -> partway l n (ep - 1) rest new d h done -> with_root n root d h -> 1 <= ep -> (1 <= last -> ep <= last + 1) -> (last < 1 -> ep = 1) -> counted h n last -> (forall c, counted h n c -> c = last) ->
  (forall e, 1 <= e < ep -> exists cls' gen' spc' c', In (OAnswer t (QCap n e) (ACap cls' gen' spc')) h /\ new_node cls' = Ok c' /\ obj d (n, e) = Some (mkO n e c' 0 gen' spc' false (Some root))) ->
  sgo h (caps me t n root ep last got (KStart rest) d).
Proof.
  intros NDL PW WR L1 L2 L3 CO CU F. unfold caps. destruct (Z.leb_spec ep last) as [Le|Gt].
  - cbn. assert (QT : quiet [OQuery t (QCap n ep)]) by qt. exists l, done, new. split; [exact NDL|]. split; [apply partway_obs; [exact PW|intros r c X; destruct (QT _ _ X)|reflexivity|intros l'; apply QT]|]. split; [|split; [lia|split; [apply in_or_app; auto|split]]].
    + destruct WR as (cls & bas & gen & spc & lis & c & A & B). exists cls, bas, gen, spc, lis, c. split; [apply in_or_app; auto|exact B].
    + intros c X. apply in_app_or in X as [X|X]; [auto|destruct (QT _ _ X)].
    + intros e Le'. destruct (F e Le') as (cls' & gen' & spc' & c' & A & B). exists cls', gen', spc', c'. split; [apply in_or_app; auto|exact B].
  - cbn [loaded]. apply (sfinish_inv l n (ep - 1) rest new d h done NDL).
    + exact PW.
    + destruct WR as (cls & bas & gen & spc & lis & c & A & B & O & SU & EN). exists cls, bas, gen, spc, lis, c. split; [exact A|]. split; [exact B|]. split; [exact O|]. rewrite SU. exists last. split; [exact CO|]. intros e Le. rewrite EN. apply F. lia.
    + intros e. split.
      * intros Le. destruct (Z.eq_dec e 0); [auto|]. right. exists last. split; [exact CO|]. lia.
      * intros [->|(x & X & Le)]; [lia|]. rewrite (CU x X) in Le. lia.
Qed.
Lemma scap_inv n root ep last got rest d h cls gen spc : sinv (PCap n root ep last got (KStart rest)) d h ->
  sgo h (obs_then [OAnswer t (QCap n ep) (ACap cls gen spc)] (with_cap me t n root ep last got cls gen spc (KStart rest) d)).
Proof.
  intros (l & done & new & NDL & PW & WR & LE & CO & CU & F). unfold with_cap. destruct (new_node cls) as [c|e] eqn:NN; [|exact I].
  set (o := mkO n ep c 0 gen spc false (Some root)). set (an := OAnswer t (QCap n ep) (ACap cls gen spc)).
  pose proof (ld_tab _ _ _ _ _ _ _ _ _ _ (proj1 (proj2 PW))) as T.
  assert (OB : forall e, obj (fst (put t o d)) (n, e) = if key_eqb (n, e) (n, ep) then Some o else obj d (n, e)) by (intros e; rewrite obj_put by exact T; reflexivity).
  assert (EN : ent (fst (put t o d)) (n, 0) = ent d (n, 0)) by (rewrite ent_put; change (o_key o) with (n, ep); rewrite key_eqb_neq; [reflexivity|]; intros X; injection X as X; lia).
  destruct (put t o d) as [d' po] eqn:EP. assert (EPO : po = OPut t (n, ep) (length (snd d))) by (unfold put in EP; injection EP as _ <-; reflexivity). subst po. cbn [fst] in OB, EN.
  apply sgo_then, (sgo_then _ [_]). rewrite <- app_assoc. cbn [List.app].
  assert (QC : forall r x, ~ counted [an; OPut t (n, ep) (length (snd d))] r x) by (intros r x [X|[X|[]]]; discriminate X).
  apply (scaps_inv n root (ep + 1) last _ rest (new ++ [length (snd d)]) d' _ l done NDL).
  - replace (ep + 1 - 1) with ep by lia. replace d' with (fst (put t o d)) by (rewrite EP; reflexivity). apply partway_put; [exact T1|exact PW|lia|exact QC|reflexivity|]. intros l' [X|[X|[]]]; discriminate X.
  - destruct WR as (cls0 & bas0 & gen0 & spc0 & lis0 & c0 & A & B & O & SU & E0). exists cls0, bas0, gen0, spc0, lis0, c0. split; [apply in_or_app; auto|]. split; [exact B|]. rewrite OB, key_eqb_neq by (intros X; injection X as X; lia). rewrite EN. auto.
  - lia.
  - lia.
  - lia.
  - apply in_or_app. auto.
  - intros x X. apply in_app_or in X as [X|X]; [auto|destruct (QC _ _ X)].
  - intros e Le. rewrite OB. destruct (Z.eq_dec e ep) as [->|NE].
    + rewrite key_eqb_refl. exists cls, gen, spc, c. split; [apply in_or_app; right; left; reflexivity|]. split; [exact NN|reflexivity].
    + rewrite key_eqb_neq by congruence. destruct (F e ltac:(lia)) as (cls' & gen' & spc' & c' & A & B). exists cls', gen', spc', c'. split; [apply in_or_app; auto|exact B].
Qed.
Lemma each_inv rest d h : (exists dn, ids d = dn ++ rest /\ started d h (WAddedAll (ids d) :: map WAdded dn)) -> sgo h (start_each t rest (length (fst d)) d).
Proof.
  intros (dn & EI & S). unfold start_each. rewrite Nat.eqb_refl. destruct rest as [|o rest]; cbn.
  - rewrite app_nil_r in EI. rewrite <- EI in S. assert (Q : quiet [ODone t (Ok RNone)]) by qt. pose proof (started_quiet _ _ _ _ S Q) as R. cbn [told] in R. rewrite app_nil_r in R. exact R.
  - split; [reflexivity|]. exists (dn ++ [o]). rewrite <- app_assoc. split; [exact EI|]. rewrite map_app. cbn [map].
    assert (Q : quiet [OTell t (WAdded o)]) by qt. pose proof (started_quiet _ _ _ _ S Q) as R. cbn [told] in R. rewrite Nat.eqb_refl in R. exact R.
Qed.
Lemma sresume_inv p a d h g : (forall l, p = PStartList -> a = ANodes l -> NoDup l) -> sinv p d h -> aresume me t p a d = Some g -> sgo h g.
Proof.
  intros FR P H. destruct p, a; try discriminate H; try (destruct P; fail); cbn [aresume] in H; try (injection H as <-); try (cbn in P; destruct P; fail).
  - destruct k as [|rest new|rest]; try (destruct P; fail). apply sinfo_inv. exact P.
  - destruct k as [|rest new|rest]; try (destruct P; fail). destruct P as (l & done & new & NDL & PW & WR & NC). apply sgo_then.
    set (an := OAnswer t (QCount n) (ACount n0)).
    assert (QC : forall r x, counted [an] r x -> r = n /\ x = n0) by (intros r x [X|[]]; injection X as <- <-; auto).
    apply (scaps_inv n root 1 n0 [root] rest new d _ l done NDL).
    + apply partway_obs; [exact PW|intros r c X; destruct (QC _ _ X); split; [assumption|lia]|reflexivity|intros l' [X|[]]; discriminate X].
    + destruct WR as (cls & bas & gen & spc & lis & c & A & B). exists cls, bas, gen, spc, lis, c. split; [apply in_or_app; auto|exact B].
    + lia.
    + lia.
    + lia.
    + apply in_or_app. right. left. reflexivity.
    + intros c X. apply in_app_or in X as [X|X]; [destruct (NC c X)|]. apply QC in X. apply X.
    + intros e Le. lia.
  - destruct k as [|rest new|rest]; try (destruct P; fail). apply scap_inv. exact P.
  - destruct P as (-> & R & Q). apply sgo_then. apply (start_inv l l). exists [], []. split; [reflexivity|]. split; [exact (FR l eq_refl eq_refl)|].
    assert (NC : forall r c, ~ counted (h ++ [OAnswer t QNodes (ANodes l)]) r c) by (intros r c X; apply in_app_or in X as [X|[X|[]]]; [destruct (Q _ _ X)|discriminate X]).
    split; [|split; [rewrite told_app, R; reflexivity|split; [apply in_or_app; right; left; reflexivity|]]].
    + apply (removed_loading t me d1 T1); [reflexivity| |exact T1|exact NC]. intros k. rewrite empty. destruct (existsb _ _); reflexivity.
    + intros l' X. apply in_app_or in X as [X|[X|[]]]; [destruct (Q _ _ X)|injection X as <-; reflexivity].
  - cbn. destruct P as (l0 & new & [L G] & R). exists l0, new. split; [split|].
    + apply loading_obs; [exact L|]. intros r c [X|[X|[]]]; discriminate X.
    + apply given_app; [exact G|]. intros l' [X|[X|[]]]; discriminate X.
    + rewrite told_app, R. cbn. rewrite Nat.eqb_refl. reflexivity.
  - apply each_inv. exists []. split; [reflexivity|]. exact P.
  - destruct P as (-> & P). apply each_inv. exact P.
Qed.
End Start.

Lemma startup_exec es1 s1 a t : aexec app0 es1 s1 a -> (length (a_tasks s1) <= t)%nat -> a_tab s1 = [] -> forall es s b, aexec s1 es s b -> same_id es -> unmixed t (a ++ b) b -> (forall l, In (OAnswer t QNodes (ANodes l)) b -> NoDup l) ->
  a_me s = a_me s1 /\ ((length (a_tasks s) <= t)%nat -> tabs_of s = tabs_of s1 /\ own t b = []) /\
  forall p, nth_error (a_tasks s) t = Some (mkAT AStartup p) -> sinv t (a_me s1) (tabs_of s1) p (tabs_of s) (own t b).
Proof.
  intros X1 LT EM es s b X. pose proof (wf_tab _ (wf_exec _ _ _ _ X1 wf0)) as T1. induction X as [|es s b e s' os X IH S]; intros SI UM FR.
  - split; [reflexivity|]. split; [auto|]. intros p N. exfalso. apply nth_error_None in LT. congruence.
  - assert (SI' : same_id es) by (intros z J; apply (SI z), in_or_app; auto).
    assert (UM' : unmixed t (a ++ b) b).
    { intros o c J N C. apply (UM o c); [apply in_or_app; auto|exact N|]. apply in_app_or in C as [C|C]; apply in_or_app; [auto|]. right. apply in_or_app. auto. }
    assert (FR' : forall l, In (OAnswer t QNodes (ANodes l)) b -> NoDup l) by (intros l J; apply FR, in_or_app; auto).
    destruct (IH SI' UM' FR') as (ME & A & B). clear IH. pose proof (aexec_app _ _ _ _ _ _ _ X1 X) as XX. pose proof (wf_exec _ _ _ _ XX wf0) as [WT WF]. destruct (calls_exec _ _ _ _ XX) as (_ & _ & _ & _ & CI).
    apply astep_case in S. destruct S as [z|c d os p E|u c p x d os p' N E|u c p x N NE].
    + exfalso. apply (SI z), in_or_app. right. left. reflexivity.
    + pose proof (start_keeps (a_me s) (length (a_tasks s)) c (tabs_of s)) as K. rewrite E in K. cbn in K. subst d.
      pose proof (by_begin (a_me s) (length (a_tasks s)) c (tabs_of s)) as BM. rewrite E in BM. unfold by_t in BM. cbn in BM.
      change (tabs_of (mkA (a_me s) (fst (tabs_of s)) (snd (tabs_of s)) (a_tasks s ++ [mkAT c p]))) with (tabs_of s). split; [exact ME|]. rewrite own_app. cbn [a_tasks]. split.
      * rewrite app_length. cbn [length]. intros L. destruct (A ltac:(lia)) as [A1 A2]. split; [exact A1|]. rewrite A2. rewrite ?own_cons; cbn [who]. destruct (Nat.eqb_spec (length (a_tasks s)) t); [lia|]. apply (own_other t _ os BM). assumption.
      * intros q. rewrite nth_snoc'. destruct (Nat.eqb_spec t (length (a_tasks s))) as [->|NE].
        -- intros H. injection H as -> ->. cbn in E. injection E as <- <-. destruct (A ltac:(lia)) as [A1 A2]. rewrite A2. cbn. rewrite Nat.eqb_refl. cbn. split; [exact A1|]. split; [reflexivity|]. intros r y [J|[J|[]]]; discriminate.
        -- intros H. specialize (B q H). rewrite ?own_cons; cbn [who]. destruct (Nat.eqb_spec (length (a_tasks s)) t); [congruence|]. rewrite (own_other t _ os BM), app_nil_r; [exact B|assumption].
    + pose proof (by_resume _ _ _ _ _ _ E) as BM. unfold by_t in BM. cbn in BM. pose proof (shape_resume _ _ _ _ _ _ E) as (NN & _ & _). cbn in NN.
      assert (ED : tabs_of (mkA (a_me s) (fst d) (snd d) (upd u (mkAT c p') (a_tasks s))) = d) by (destruct d; reflexivity). rewrite ED, own_app. split; [exact ME|]. cbn [a_tasks]. rewrite upd_length.
      destruct (Nat.eq_dec u t) as [->|NU].
      * split; [intros L; apply nth_error_None in L; congruence|]. intros q. rewrite (nth_upd' _ _ _ _ N), Nat.eqb_refl. intros H. injection H as -> <-. rewrite (own_mine t os BM).
        rewrite <- ME in B |- *. refine (sresume_inv t (a_me s) (tabs_of s1) T1 EM _ _ _ _ _ _ (B p N) E). intros l -> ->. apply FR, in_or_app. right. cbn [aresume] in E. destruct (start_loop _ _ _ _) as [[d2 os2] p2]. injection E as <- <- <-. left. reflexivity.
      * assert (EQ : d = tabs_of s).
        { destruct os as [|o os]; [contradiction|]. apply Forall_inv in BM as MO. apply mine_who in MO. assert (C : changes c = false).
          { apply (UM o); [apply in_or_app; right; left; reflexivity|congruence|]. rewrite MO. rewrite app_assoc. apply in_or_app. left. apply (CI u c p); [cbn; lia|exact N]. }
          exact (message_keeps _ _ _ _ _ _ _ (WF _ _ _ N) C E). }
        rewrite (own_other t u os BM NU), app_nil_r, EQ. split; [exact A|]. intros q. rewrite (nth_upd' _ _ _ _ N). destruct (Nat.eqb_spec t u); [congruence|apply B].
    + change (tabs_of (mkA (a_me s) (a_tab s) (a_objs s) (upd u (mkAT c (PEnd (Err x))) (a_tasks s)))) with (tabs_of s). split; [exact ME|]. cbn [a_tasks]. rewrite upd_length, own_app. rewrite ?own_cons; cbn [who]. split.
      * intros L. destruct (Nat.eqb_spec u t) as [->|NU]; [apply nth_error_None in L; congruence|]. rewrite app_nil_r. auto.
      * intros q. rewrite (nth_upd' _ _ _ _ N). destruct (Nat.eqb_spec t u) as [->|NU]; [intros H; injection H as -> <-; exact I|]. destruct (Nat.eqb_spec u t); [congruence|]. rewrite app_nil_r. apply B.
Qed.

Theorem startup_done es1 s1 a es s b t l v : aexec app0 es1 s1 a -> a_tab s1 = [] -> aexec s1 es s b -> same_id es -> unmixed t (a ++ b) b ->
  In (OCalled t AStartup) b -> NoDup l -> (forall l', In (OAnswer t QNodes (ANodes l')) b -> l' = l) -> In (ODone t (Ok v)) b ->
  (forall r e, entry s (r, e) <> None <-> In r l /\ r <> a_me s1 /\ (e = 0 \/ exists c, In (OAnswer t (QCount r) (ACount c)) b /\ 1 <= e <= c)) /\
  (forall r, In r l -> r <> a_me s1 -> as_reported t b s r) /\
  (exists all, told t b = WAddedAll all :: map WAdded all /\ NoDup all /\ forall i, In i all <-> exists k, entry s k = Some i).
Proof.
  intros X1 EM X SI UM CA NDL AN DO.
  destruct (calls_exec _ _ _ _ X) as (_ & _ & _ & CC & _). destruct (CC _ _ CA) as (LT & p0 & N0). destruct (done_exec _ _ _ _ X _ _ DO) as (c & N). rewrite N0 in N. injection N as <- ->.
  assert (FR : forall l', In (OAnswer t QNodes (ANodes l')) b -> NoDup l') by (intros l' J; rewrite (AN l' J); exact NDL).
  destruct (startup_exec _ _ _ t X1 LT EM _ _ _ X SI UM FR) as (_ & _ & P). specialize (P _ N0). destruct P as (l' & new & [[T K KP _ LD OB NW CO] [G1 G2]] & TO).
  assert (l' = l) by (apply AN; apply (own_in t) in G1; [exact G1|reflexivity]). subst l'.
  assert (CN : forall r c, counted t (own t b) r c <-> In (OAnswer t (QCount r) (ACount c)) b) by (intros r c; symmetry; apply own_in; reflexivity).
  assert (E0 : forall k, ent (tabs_of s1) k = None) by (intros k; unfold ent; cbn; rewrite EM; reflexivity).
  split; [|split].
  - intros r e. specialize (K r e). change (ent (tabs_of s) (r, e)) with (entry s (r, e)) in K. rewrite !E0 in K. rewrite K. split.
    + intros (J & [H|(_ & NM & [(_ & Q)|(_ & Q)])]); [congruence| |lia]. split; [exact J|]. split; [exact NM|]. destruct Q as [Q|(x & Q & L)]; [auto|]. right. exists x. split; [apply CN; exact Q|exact L].
    + intros (J & NM & Q). split; [exact J|]. right. split; [reflexivity|]. split; [exact NM|]. left. split; [exact J|]. destruct Q as [Q|(x & Q & L)]; [auto|]. right. exists x. split; [apply CN; exact Q|exact L].
  - intros r J NM. destruct (LD r J J (E0 _) NM) as (cls & bas & gen & spc & lis & c & A & NN & O & R). exists cls, bas, gen, spc, lis, c. split; [apply (own_in t) in A; [exact A|reflexivity]|]. split; [exact NN|]. split; [exact O|].
    destruct (supports c 96).
    + destruct R as (n & C & F). exists n. split; [apply CN; exact C|]. intros e Le. destruct (F e Le) as (cls' & gen' & spc' & c' & A' & NN' & O'). exists cls', gen', spc', c'. split; [apply (own_in t) in A'; [exact A'|reflexivity]|]. auto.
    + intros n C. apply (R n). apply CN. exact C.
  - exists (ids (tabs_of s)). rewrite <- (told_own t b). split; [exact TO|].
    assert (KO : forall e, In e (a_tab s) -> exists o, nth_error (a_objs s) (snd e) = Some o /\ o_key o = fst e) by (intros [k i] J; destruct (to_objs _ T _ _ J) as (o & A & B); exists o; auto).
    pose proof (to_keys _ T) as ND. cbn [tabs_of fst] in ND. split.
    + unfold ids. cbn [tabs_of fst]. clear - KO ND. induction (a_tab s) as [|e d IH]; cbn in *; [constructor|]. inversion ND as [|? ? NI ND']; subst. constructor; [|apply IH; auto]. intros J. apply in_map_iff in J as (e' & EQ & J).
      destruct (KO e (or_introl eq_refl)) as (o & A & B). destruct (KO e' (or_intror J)) as (o' & A' & B'). rewrite EQ in A'. apply NI. rewrite <- B. assert (o' = o) by congruence. subst o'. rewrite B'. apply in_map. exact J.
    + intros i. unfold ids. cbn [tabs_of fst]. rewrite in_map_iff. split.
      * intros ([k i'] & <- & J). exists k. apply in_kget; assumption.
      * intros (k & H). exists (k, i). split; [reflexivity|]. apply kget_in. exact H.
Qed.
