(** Proofs for node.py: construction, routing, supervision, storage lock; util.py speak. *)
From Coq Require Import String ZArith List Bool Lia.
From Verif Require Import Py BitStream Schema Registry Codec SpecBits SpecWire EncodeProofs CodecProofs Waiter Listen NodeM SpecNode.
Import ListNotations.
Open Scope list_scope.
Open Scope string_scope.
Open Scope list_scope.
Open Scope Z_scope.

(** ** Dictionaries *)
Lemma dget_dset {V} k k' (v : V) d : dget Z.eqb k (dset Z.eqb k' v d) = if Z.eqb k k' then Some v else dget Z.eqb k d.
Proof.
  induction d as [|(k2, v2) d IH]; cbn [dset dget].
  - destruct (Z.eqb_spec k k'); reflexivity.
  - destruct (Z.eqb_spec k' k2) as [->|N]; cbn [dget].
    + destruct (Z.eqb_spec k k2); reflexivity.
    + destruct (Z.eqb_spec k k2) as [->|N']; [|exact IH]. destruct (Z.eqb_spec k2 k'); [congruence|reflexivity].
Qed.

(** ** Node information frames *)
Lemma two_step (P : list Z -> Prop) : P [] -> (forall c l, P l -> (forall c' l', l = c' :: l' -> P l') -> P (c :: l)) -> forall l, P l.
Proof.
  intros H0 H1. enough (H : forall l, P l /\ forall c l', l = c :: l' -> P l') by (intros l; exact (proj1 (H l))).
  induction l as [|c l [IH IH']]; split; [exact H0|discriminate| |].
  - apply H1; [exact IH|exact IH'].
  - intros c' l' [= <- <-]. exact IH.
Qed.

Definition step_token (t : token) (st : bool * bool * classes) : bool * bool * classes :=
  let '(supp, sec, n) := st in
  match t with
  | TkS0 => (true, true, n)
  | TkControl => (false, sec, n)
  | TkClass c => (supp, sec, if supp then mkCls (dset Z.eqb c sec (n_supported n)) (n_controlled n) else mkCls (n_supported n) (dset Z.eqb c sec (n_controlled n)))
  end.
Definition fold_tokens (ts : list token) st := fold_left (fun s t => step_token t s) ts st.

Lemma nif_reads l ts : reads l ts -> forall supp sec n, nif l supp sec n = Ok (snd (fold_tokens ts (supp, sec, n))).
Proof.
  induction 1 as [|l ts H IH|l ts H IH|c l ts N M H IH]; intros supp sec n.
  - reflexivity.
  - change (nif (241 :: 0 :: l) supp sec n) with (nif l true true n). rewrite IH. reflexivity.
  - change (nif (239 :: l) supp sec n) with (nif l false sec n). rewrite IH. reflexivity.
  - cbn [nif]. destruct (Z.eqb_spec c 239) as [E|_]; [contradiction|]. destruct (Z.eqb_spec c 241) as [->|_].
    + destruct (M eq_refl) as (c' & l' & -> & Z'). destruct (Z.eqb_spec c' 0) as [E|_]; [contradiction|]. rewrite IH. reflexivity.
    + rewrite IH. reflexivity.
Qed.

Lemma reads_total l : (exists ts, reads l ts) <-> last l 0 <> 241.
Proof.
  induction l as [|c l IH IH'] using two_step.
  - split; [intros _; discriminate|]. intros _. exists []. constructor.
  - destruct (Z.eqb_spec c 241) as [->|N].
    + destruct l as [|c' l'].
      * split; [|cbn; congruence]. intros (ts & H). inversion H as [| | |c0 l0 ts0 _ M _]. destruct (M eq_refl) as (? & ? & ? & _). discriminate.
      * destruct (Z.eqb_spec c' 0) as [->|Z'].
        { specialize (IH' 0 l' eq_refl). split.
          - intros (ts & H). inversion H; subst.
            + destruct l' as [|a l']; [cbn; lia|]. apply IH'. eauto.
            + destruct H3 as (? & ? & [= <- _] & ?); [reflexivity|congruence].
          - intros H. destruct IH' as [_ IH']. destruct IH' as (ts & R).
            + destruct l' as [|a l']; [cbn; lia|exact H].
            + exists (TkS0 :: ts). constructor. exact R. }
        { split.
          - intros (ts & H). inversion H; subst; [congruence|]. apply IH. eauto.
          - intros H. destruct IH as [_ IH]. destruct IH as (ts & R); [exact H|]. exists (TkClass 241 :: ts). constructor; [lia| |exact R]. intros _. eauto. }
    + assert (L : last (c :: l) 0 <> 241 <-> last l 0 <> 241) by (destruct l as [|a l]; [cbn; split; congruence|reflexivity]).
      rewrite L, <- IH. destruct (Z.eqb_spec c 239) as [->|N'].
      * split; [intros (ts & H); inversion H; subst; [eauto|congruence]|intros (ts & R); exists (TkControl :: ts); constructor; exact R].
      * split; [intros (ts & H); inversion H; subst; [congruence|congruence|eauto]|intros (ts & R); exists (TkClass c :: ts); constructor; [exact N'|congruence|exact R]].
Qed.
Lemma nif_fails l supp sec n : last l 0 = 241 -> nif l supp sec n = Err EIndex.
Proof.
  revert supp sec n. induction l as [|c l IH IH'] using two_step; intros supp sec n E; [discriminate|].
  destruct l as [|c' l'].
  - cbn in E. subst c. reflexivity.
  - change (last (c :: c' :: l') 0) with (last (c' :: l') 0) in E. cbn [nif].
    destruct (Z.eqb_spec c 241) as [_|_].
    + destruct (Z.eqb_spec c' 0) as [->|_].
      * apply (IH' 0 l' eq_refl). destruct l' as [|a l']; [discriminate E|exact E].
      * destruct (c =? 239); apply IH; exact E.
    + destruct (c =? 239); apply IH; exact E.
Qed.
Lemma new_node_ok l : last l 0 <> 241 -> exists n, new_node l = Ok n.
Proof. intros H. apply reads_total in H. destruct H as (ts & R). unfold new_node. rewrite (nif_reads l ts R). eauto. Qed.

(** the state of the scan after the tokens [a] *)
Lemma supporting_dec a : fst (fst (fold_tokens a (true, false, mkCls [] []))) = true <-> supporting a.
Proof.
  induction a as [|t a IH] using rev_ind.
  - split; [|reflexivity]. intros _ x y E. destruct x; discriminate.
  - unfold fold_tokens in *. rewrite fold_left_app. cbn [fold_left]. destruct (fold_left _ a _) as ((supp, sec), n). cbn [fst] in IH.
    destruct t as [| |c]; cbn [step_token fst].
    + split; [|reflexivity]. intros _ x y E. destruct y as [|t y] using rev_ind.
      * apply app_inj_tail in E. destruct E as [_ E]. discriminate.
      * clear IHy. rewrite app_comm_cons, app_assoc in E. apply app_inj_tail in E. destruct E as [_ <-]. apply in_or_app. right. left. reflexivity.
    + split; [discriminate|]. intros S. destruct (S a [] eq_refl).
    + rewrite IH. split; intros S x y E.
      * destruct y as [|t y] using rev_ind; [apply app_inj_tail in E; destruct E as [_ E]; discriminate|]. clear IHy.
        rewrite app_comm_cons, app_assoc in E. apply app_inj_tail in E. destruct E as [E <-]. apply in_or_app. left. exact (S x y E).
      * subst a. specialize (S x (y ++ [TkClass c])). rewrite <- app_assoc in S. cbn in S. specialize (S eq_refl).
        apply in_app_or in S. destruct S as [S|[S|[]]]; [exact S|discriminate].
Qed.
Lemma secure_dec a : snd (fst (fold_tokens a (true, false, mkCls [] []))) = true <-> In TkS0 a.
Proof.
  induction a as [|t a IH] using rev_ind; [cbn; intuition discriminate|].
  unfold fold_tokens in *. rewrite fold_left_app. cbn [fold_left]. destruct (fold_left _ a _) as ((supp, sec), n). cbn [fst snd] in IH.
  rewrite in_app_iff, <- IH. destruct t as [| |c]; cbn; intuition discriminate.
Qed.

Lemma last_listed_snoc part c a ts t : last_listed part c a (ts ++ [t]) <->
  (t = TkClass c /\ part ts /\ a = ts) \/ ((t <> TkClass c \/ ~ part ts) /\ last_listed part c a ts).
Proof.
  split.
  - intros (b & E & P & L). destruct b as [|t' b] using rev_ind.
    + apply app_inj_tail in E. destruct E as [<- <-]. left. auto.
    + clear IHb. rewrite app_comm_cons, app_assoc in E. apply app_inj_tail in E. destruct E as [-> <-]. right. split.
      * assert (D : t = TkClass c \/ t <> TkClass c) by (destruct t as [| |d]; [right; discriminate|right; discriminate|]; destruct (Z.eq_dec d c) as [->|]; [left; reflexivity|right; congruence]).
        destruct D as [->|D]; [|left; exact D]. right. apply (L b []). reflexivity.
      * exists b. split; [reflexivity|]. split; [exact P|]. intros x y ->. apply (L x (y ++ [t])). rewrite <- app_assoc. reflexivity.
  - intros [(-> & P & ->)|(D & b & -> & P & L)].
    + exists []. split; [reflexivity|]. split; [exact P|]. intros x y E. destruct x; discriminate.
    + exists (b ++ [t]). split; [rewrite <- app_assoc; reflexivity|]. split; [exact P|]. intros x y E.
      destruct y as [|t' y] using rev_ind.
      * apply app_inj_tail in E. destruct E as [<- ->]. destruct D as [D|D]; [congruence|]. exact D.
      * clear IHy. rewrite app_comm_cons, app_assoc in E. apply app_inj_tail in E. destruct E as [-> _]. exact (L x y eq_refl).
Qed.

Lemma tables ts c sec : let n := snd (fold_tokens ts (true, false, mkCls [] [])) in
  (dget Z.eqb c (n_supported n) = Some sec <-> exists a, last_listed supporting c a ts /\ (sec = true <-> In TkS0 a)) /\
  (dget Z.eqb c (n_controlled n) = Some sec <-> exists a, last_listed (fun a => ~ supporting a) c a ts /\ (sec = true <-> In TkS0 a)).
Proof.
  induction ts as [|t ts IH] using rev_ind; cbn zeta.
  - cbn. split; (split; [discriminate|]); intros (a & (b & E & _) & _); destruct a; discriminate.
  - unfold fold_tokens in *. rewrite fold_left_app. cbn [fold_left].
    pose proof (supporting_dec ts) as D1. pose proof (secure_dec ts) as D2. unfold fold_tokens in D1, D2. cbn zeta in IH.
    destruct (fold_left _ ts _) as ((supp, sec'), n). cbn [fst snd] in *. destruct IH as [I1 I2].
    assert (K : forall (part : list token -> Prop) tab, (t = TkClass c -> ~ part ts) -> (dget Z.eqb c tab = Some sec <-> exists a, last_listed part c a ts /\ (sec = true <-> In TkS0 a)) ->
      (dget Z.eqb c tab = Some sec <-> exists a, last_listed part c a (ts ++ [t]) /\ (sec = true <-> In TkS0 a))).
    { intros part tab NP I. rewrite I. split; intros (a & L & J); exists a; (split; [|exact J]).
      - apply last_listed_snoc. right. split; [|exact L].
        assert (D : t = TkClass c \/ t <> TkClass c) by (destruct t as [| |d]; [right; discriminate|right; discriminate|]; destruct (Z.eq_dec d c) as [->|]; [left; reflexivity|right; congruence]).
        destruct D as [D|D]; [right; exact (NP D)|left; exact D].
      - apply last_listed_snoc in L. destruct L as [(E & P & _)|(_ & L)]; [destruct (NP E P)|exact L]. }
    assert (K' : forall (part : list token -> Prop) tab d, t = TkClass d -> part ts -> (dget Z.eqb c tab = Some sec <-> exists a, last_listed part c a ts /\ (sec = true <-> In TkS0 a)) ->
      (dget Z.eqb c (dset Z.eqb d sec' tab) = Some sec <-> exists a, last_listed part c a (ts ++ [t]) /\ (sec = true <-> In TkS0 a))).
    { intros part tab d -> P I. rewrite dget_dset. destruct (Z.eqb_spec c d) as [->|N].
      - split.
        + intros [= <-]. exists ts. split; [apply last_listed_snoc; left; auto|exact D2].
        + intros (a & L & J). apply last_listed_snoc in L. destruct L as [(_ & _ & ->)|([L|L] & _)]; [|congruence|contradiction].
          f_equal. clear - D2 J. destruct sec, sec'; try reflexivity; exfalso; intuition discriminate.
      - rewrite I. split; intros (a & L & J); exists a; (split; [|exact J]); [apply last_listed_snoc; right; split; [left; congruence|exact L]|].
        apply last_listed_snoc in L. destruct L as [([= E] & _)|(_ & L)]; [congruence|exact L]. }
    destruct t as [| |d]; cbn [step_token snd].
    + split; apply K; solve [discriminate|assumption].
    + split; apply K; solve [discriminate|assumption].
    + destruct supp; cbn [n_supported n_controlled].
      * assert (S : supporting ts) by tauto. split; [apply K' with (1 := eq_refl); assumption|]. apply K; [|exact I2]. intros _ H. exact (H S).
      * assert (S : ~ supporting ts) by (rewrite <- D1; discriminate). split; [apply K; [|exact I1]; intros _; exact S|]. apply K' with (1 := eq_refl); assumption.
Qed.

Lemma nif_tables l ts n c sec : reads l ts -> new_node l = Ok n ->
  (dget Z.eqb c (n_supported n) = Some sec <-> exists a, last_listed supporting c a ts /\ (sec = true <-> In TkS0 a)) /\
  (dget Z.eqb c (n_controlled n) = Some sec <-> exists a, last_listed (fun a => ~ supporting a) c a ts /\ (sec = true <-> In TkS0 a)).
Proof. intros R E. unfold new_node in E. rewrite (nif_reads l ts R) in E. injection E as <-. exact (tables ts c sec). Qed.

Lemma supporting_or ts : supporting ts \/ ~ supporting ts.
Proof. rewrite <- supporting_dec. destruct (fst (fst (fold_tokens ts (true, false, mkCls [] [])))); auto. Qed.
Lemma last_of part c ts : (forall a, part a \/ ~ part a) -> (exists a b, ts = a ++ TkClass c :: b /\ part a) <-> exists a, last_listed part c a ts.
Proof.
  intros D. induction ts as [|t ts IH] using rev_ind.
  - split; [intros (a & b & E & _); destruct a; discriminate|intros (a & b & E & _); destruct a; discriminate].
  - split.
    + intros (a & b & E & P).
      destruct b as [|t' b] using rev_ind.
      * apply app_inj_tail in E. destruct E as [<- ->]. exists ts. apply last_listed_snoc. auto.
      * clear IHb. rewrite app_comm_cons, app_assoc in E. apply app_inj_tail in E. destruct E as [E _].
        assert (DT : t = TkClass c \/ t <> TkClass c) by (destruct t as [| |d]; [right; discriminate|right; discriminate|]; destruct (Z.eq_dec d c) as [->|]; [left; reflexivity|right; congruence]).
        destruct IH as [IH _]. destruct IH as (a' & L); [eauto|].
        destruct DT as [->|DT]; [|exists a'; apply last_listed_snoc; auto].
        destruct (D ts) as [Y|N]; [exists ts|exists a']; apply last_listed_snoc; auto.
    + intros (a & b & E & P & _). eauto.
Qed.
Lemma supports_listed l ts n c : reads l ts -> new_node l = Ok n -> (supports n c = true <-> exists a b, ts = a ++ TkClass c :: b /\ supporting a).
Proof.
  intros R E. rewrite (last_of supporting c ts supporting_or). unfold supports, dmem. split.
  - intros H. destruct (dget Z.eqb c (n_supported n)) as [sec|] eqn:G; [|discriminate]. apply (nif_tables l ts n c sec R E) in G. destruct G as (a & L & _). eauto.
  - intros (a & L). assert (G : dget Z.eqb c (n_supported n) = Some (snd (fst (fold_tokens a (true, false, mkCls [] []))))).
    { apply (nif_tables l ts n c _ R E). exists a. split; [exact L|apply secure_dec]. }
    rewrite G. reflexivity.
Qed.
Lemma class_not_control l ts c : reads l ts -> In (TkClass c) ts -> c <> 239.
Proof. induction 1; intros J; cbn in J; [contradiction|destruct J as [J|J]; [discriminate|auto]..|]. destruct J as [[= <-]|J]; auto. Qed.

(** ** Listeners *)
Lemma speak_shift i ls : called (speak (S i) ls) = map S (called (speak i ls)) /\ started (speak (S i) ls) = map S (started (speak i ls)) /\ futures (speak (S i) ls) = futures (speak i ls).
Proof.
  revert i. induction ls as [|l ls IH]; intros i; [auto|]. cbn [speak]. destruct (IH (S i)) as (A & B & C).
  destruct l as [|[b|e]|r]; cbn [called started futures map]; rewrite ?A, ?B, ?C; auto.
Qed.
Lemma filter_map {A B} (p : B -> bool) (f : A -> B) l : filter p (map f l) = map f (filter (fun x => p (f x)) l).
Proof. induction l as [|x l IH]; [reflexivity|]. cbn. destruct (p (f x)); cbn; rewrite IH; reflexivity. Qed.
Lemma positions_cons p l ls : positions p (l :: ls) = (if p l then [O] else []) ++ map S (positions p ls).
Proof.
  unfold positions. cbn [length seq]. cbn [filter]. change (nth_error (l :: ls) 0) with (Some l). cbn iota beta.
  rewrite <- seq_shift, filter_map. cbn [nth_error]. destruct (p l); reflexivity.
Qed.
Lemma speak_calls ls : called (speak 0 ls) = positions calls_now ls /\ started (speak 0 ls) = positions calls_later ls.
Proof.
  induction ls as [|l ls [IH1 IH2]]; [auto|]. rewrite !positions_cons. destruct (speak_shift 0 ls) as (A & B & _).
  cbn [speak]. destruct l as [|[b|e]|r]; cbn [called started calls_now calls_later app]; rewrite ?A, ?B, ?IH1, ?IH2; auto.
Qed.
Lemma futures_shift i ls : futures (speak i ls) = futures (speak 0 ls).
Proof. induction i as [|i IH]; [reflexivity|]. rewrite (proj2 (proj2 (speak_shift i ls))). exact IH. Qed.
Lemma futures_in ls r : In r (futures (speak 0 ls)) <-> (exists b, r = Ok b /\ In (Answers (Ok b)) ls) \/ In (Later r) ls.
Proof.
  induction ls as [|l ls IH]; [cbn; split; [tauto|intros [(? & _ & [])|[]]]|].
  cbn [speak]. pose proof (futures_shift 1 ls) as FS.
  destruct l as [|[b|e]|r0]; cbn [futures In]; rewrite FS, IH.
  - split; [intros [(b & -> & J)|J]; [left; exists b; auto|auto]|intros [(b & -> & [J|J])|[J|J]]; try discriminate; eauto].
  - split.
    + intros [<-|[(b' & -> & J)|J]]; [left; exists b; auto|left; exists b'; auto|auto].
    + intros [(b' & -> & [[= ->]|J])|[J|J]]; try discriminate; eauto.
  - split; [intros [(b & -> & J)|J]; [left; exists b; auto|auto]|intros [(b & -> & [J|J])|[J|J]]; try discriminate; eauto].
  - split.
    + intros [<-|[(b' & -> & J)|J]]; [auto|left; exists b'; auto|auto].
    + intros [(b' & -> & [J|J])|[[= ->]|J]]; try discriminate; eauto 6.
Qed.

Lemma gather_ok l bs : gather l = Ok bs -> forall r, In r l -> exists b, r = Ok b.
Proof.
  revert bs. induction l as [|[b|e] l IH]; intros bs E r J; [destruct J| |discriminate]. cbn in E. destruct (gather l) as [bs'|] eqn:G; [|discriminate].
  destruct J as [<-|J]; [eauto|exact (IH _ eq_refl r J)].
Qed.
Lemma gather_exists l bs : gather l = Ok bs -> existsb (fun b => b) bs = true <-> In (Ok true) l.
Proof.
  revert bs. induction l as [|[b|e] l IH]; intros bs E; [injection E as <-; cbn; intuition discriminate| |discriminate].
  cbn in E. destruct (gather l) as [bs'|] eqn:G; [|discriminate]. injection E as <-. cbn [existsb In]. rewrite orb_true_iff, (IH _ eq_refl).
  destruct b; intuition congruence.
Qed.
Lemma gather_err l e : gather l = Err e -> In (Err e) l.
Proof.
  induction l as [|[b|e'] l IH]; intros E; [discriminate| |injection E as <-; left; reflexivity]. cbn in E. destruct (gather l); [discriminate|]. right. apply IH. congruence.
Qed.
Definition asked (ls : list reaction) : res bool := do bs <- ask ls; Ok (existsb (fun b => b) bs).
Lemma asked_ok ls b : asked ls = Ok b -> (forall l, In l ls -> ~ raises l) /\ (b = true <-> exists l, In l ls /\ says_yes l).
Proof.
  unfold asked, ask. destruct (gather _) as [bs|] eqn:G; [|discriminate]. cbn. intros [= <-]. split.
  - intros l J (e & ->). destruct (gather_ok _ _ G (Err e)) as (b & E); [|discriminate]. apply futures_in. right. exact J.
  - rewrite (gather_exists _ _ G), futures_in. unfold says_yes. split.
    + intros [(b & [= <-] & J)|J]; eauto.
    + intros (l & J & [->| ->]); [left; eauto|right; exact J].
Qed.
Lemma asked_err ls e : asked ls = Err e -> exists l, In l ls /\ raises l.
Proof.
  unfold asked, ask. destruct (gather _) as [bs|] eqn:G; [discriminate|]. intros _. apply gather_err in G. apply futures_in in G.
  destruct G as [(b & E & _)|J]; [discriminate|]. unfold raises. eauto.
Qed.

(** ** Routing *)
Lemma has_name_named m : has_name m = true <-> named m.
Proof.
  unfold has_name, named. destruct m; try (split; [discriminate|intros (? & ? & ? & _); discriminate]).
  destruct c as [s| | | | | | ]; try (split; [discriminate|intros (? & ? & ? & _); discriminate]).
  rewrite negb_true_iff, String.eqb_neq. split; [eauto|intros (s' & d & [= <- _] & N); exact N].
Qed.
Lemma class_handle_spec m r st x : class_handle m r = (st, x) ->
  (x = Ok true -> class_takes m r) /\ (x = Ok false -> ~ class_takes m r) /\ (forall e, x = Err e -> ~ class_quiet r) /\
  st = if has_name m then match r_handler r with None => [SClassListeners] | Some (Ok false) => [SHandler; SClassListeners] | _ => [SHandler] end else [].
Proof.
  unfold class_handle, class_takes. pose proof (has_name_named m) as HN. destruct (has_name m).
  2: { intros [= <- <-]. split; [discriminate|]. split; [|split; [discriminate|reflexivity]]. intros _ (N & _). apply HN in N. discriminate. }
  assert (N : named m) by (apply HN; reflexivity). clear HN. fold (asked (r_listeners r)).
  assert (A : forall x, asked (r_listeners r) = x -> (x = Ok true -> named m /\ (r_handler r = Some (Ok true) \/ (exists l, In l (r_listeners r) /\ says_yes l))) /\
    (x = Ok false -> ~ exists l, In l (r_listeners r) /\ says_yes l) /\ (forall e, x = Err e -> ~ class_quiet r)).
  { intros y E. split; [|split].
    - intros ->. destruct (asked_ok _ _ E) as [_ H]. split; [exact N|]. right. apply H. reflexivity.
    - intros -> H. destruct (asked_ok _ _ E) as [_ H']. apply H' in H. discriminate.
    - intros e ->. destruct (asked_err _ _ E) as (l & J & R). intros [_ Q]. exact (Q l J R). }
  destruct (r_handler r) as [[[|]|e]|] eqn:HR.
  - intros [= <- <-]. split; [intros _; auto|]. split; [discriminate|]. split; [discriminate|reflexivity].
  - destruct (A _ eq_refl) as (A1 & A2 & A3). intros [= <- <-]. split; [exact A1|]. split; [|split; [exact A3|reflexivity]].
    intros E (_ & [H|H]); [discriminate|exact (A2 E H)].
  - intros [= <- <-]. split; [discriminate|]. split; [discriminate|]. split; [|reflexivity]. intros e' _ [Q _]. exact (Q e HR).
  - destruct (A _ eq_refl) as (A1 & A2 & A3). intros [= <- <-]. split; [exact A1|]. split; [|split; [exact A3|reflexivity]].
    intros E (_ & [H|H]); [discriminate|exact (A2 E H)].
Qed.

Lemma message_received_spec m w w' r : (forall f, dget Z.eqb (hid m) (w_sess w) = Some f -> nth_error (w_futs w) f = Some FPending) -> message_received m w = (w', r) ->
  (exists c d, m = VObj c d) ->
  (awaited m w /\ r = Ok true /\ (exists f, dget Z.eqb (hid m) (w_sess w) = Some f /\ w' = mkW (ddel Z.eqb (hid m) (w_sess w)) (upd f (FDone m) (w_futs w)))) \/
  (~ awaited m w /\ r = Ok false /\ w' = w).
Proof.
  intros O E (c & d & ->). unfold message_received in E. unfold awaited. destruct (dget Z.eqb _ (w_sess w)) as [f|].
  - rewrite (O f eq_refl) in E. injection E as <- <-. left. split; [exists f; auto|]. split; [reflexivity|]. exists f. split; reflexivity.
  - injection E as <- <-. right. split; [|auto]. intros (f & H & _). discriminate.
Qed.

Section Route.
Context (m : val) (w : waiter) (cls : list (Z * reacts)) (ls : list reaction) (w' : waiter) (st : list stage) (r : res bool).
Context (M : exists c d, m = VObj c d) (O : forall f, dget Z.eqb (hid m) (w_sess w) = Some f -> nth_error (w_futs w) f = Some FPending).
Context (E : handle m w cls ls = (w', st, r)).
Let mine := dget Z.eqb (msg_class m) cls.
Let taken := exists rc, mine = Some rc /\ class_takes m rc.

Lemma handle_all :
  exists cs, st = SWaiters :: cs \/ st = SWaiters :: cs ++ [SNodeListeners].
Proof.
  unfold handle in E. destruct (message_received m w) as (w1, [h|e]); [|injection E as <- <- <-; exists []; auto].
  destruct (match dget Z.eqb (msg_class m) cls with Some r => class_handle m r | None => ([], Ok false) end) as (s, [[|]|e]); [injection E as <- <- <-; eauto| |injection E as <- <- <-; eauto].
  destruct h; injection E as <- <- <-; eauto.
Qed.

Lemma handle_waiters : (awaited m w /\ exists f, dget Z.eqb (hid m) (w_sess w) = Some f /\ w' = mkW (ddel Z.eqb (hid m) (w_sess w)) (upd f (FDone m) (w_futs w))) \/ (~ awaited m w /\ w' = w).
Proof.
  unfold handle in E. destruct (message_received m w) as (w1, h) eqn:EM. pose proof (message_received_spec m w w1 h O EM M) as S.
  assert (w' = w1).
  { destruct h as [h|e]; [|congruence]. destruct (match dget Z.eqb (msg_class m) cls with Some r => class_handle m r | None => ([], Ok false) end) as (s, [[|]|e]); [congruence| |congruence]. destruct h; congruence. }
  subst w1. destruct S as [(A & _ & B)|(A & _ & B)]; auto.
Qed.

Lemma handle_route : (forall rc, mine = Some rc -> class_quiet rc) -> (forall l, In l ls -> ~ raises l) ->
  exists b, r = Ok b /\ (b = true <-> awaited m w \/ taken \/ exists l, In l ls /\ says_yes l) /\
    (exists h c n : bool, st = SWaiters :: (if h then [SHandler] else []) ++ (if c then [SClassListeners] else []) ++ (if n then [SNodeListeners] else []) /\
      (n = true <-> ~ awaited m w /\ ~ taken) /\
      (h = true <-> named m /\ exists rc, mine = Some rc /\ r_handler rc <> None) /\
      (c = true <-> named m /\ exists rc, mine = Some rc /\ r_handler rc <> Some (Ok true))).
Proof.
  intros Q1 Q2. unfold handle in E. destruct (message_received m w) as (w1, h) eqn:EM. pose proof (message_received_spec m w w1 h O EM M) as S.
  fold mine in E.
  assert (K : exists (cs : list stage) (t : bool), match mine with Some r => class_handle m r | None => ([], Ok false) end = (cs, Ok t) /\ (t = true <-> taken) /\
    exists h c : bool, cs = (if h then [SHandler] else []) ++ (if c then [SClassListeners] else []) /\ (h = true <-> named m /\ exists rc, mine = Some rc /\ r_handler rc <> None) /\
      (c = true <-> named m /\ exists rc, mine = Some rc /\ r_handler rc <> Some (Ok true))).
  { destruct mine as [rc|] eqn:EMine.
    - destruct (class_handle m rc) as (cs, [t|e]) eqn:EC; destruct (class_handle_spec m rc cs _ EC) as (C1 & C2 & C3 & C4).
      + exists cs, t. split; [reflexivity|]. split.
        * unfold taken. split; [intros ->; eauto|]. intros (rc' & R & T). assert (rc' = rc) as -> by congruence. destruct t; [reflexivity|]. destruct (C2 eq_refl T).
        * assert (X : forall P : reacts -> Prop, (exists rc0, Some rc = Some rc0 /\ P rc0) <-> P rc) by (intros P; split; [intros (? & [= <-] & H); exact H|eauto]).
          pose proof (X (fun rc => r_handler rc <> None)) as X1. pose proof (X (fun rc => r_handler rc <> Some (Ok true))) as X2. cbn beta in X1, X2. setoid_rewrite X1. setoid_rewrite X2. clear X X1 X2. setoid_rewrite <- has_name_named. destruct (has_name m).
          { destruct (r_handler rc) as [[[|]|e]|] eqn:HR.
            - exists true, false. subst cs. split; [reflexivity|]. intuition congruence.
            - exists true, true. subst cs. split; [reflexivity|]. intuition congruence.
            - destruct (Q1 rc eq_refl) as [Q _]. destruct (Q e HR).
            - exists false, true. subst cs. split; [reflexivity|]. intuition congruence. }
          { exists false, false. subst cs. split; [reflexivity|]. intuition congruence. }
      + destruct (C3 e eq_refl (Q1 rc eq_refl)).
    - exists [], false. split; [reflexivity|]. split; [split; [discriminate|intros (? & ? & _); discriminate]|].
      exists false, false. split; [reflexivity|]. split; (split; [discriminate|intros (_ & ? & ? & _); discriminate]). }
  destruct K as (cs & t & EC & T & hh & cc & -> & KH & KC). rewrite EC in E.
  destruct S as [(A & -> & _)|(A & -> & _)].
  - exists true. destruct t; injection E as <- <- <-; (split; [reflexivity|]); (split; [tauto|]); exists hh, cc, false; rewrite ?app_nil_r;
      (split; [reflexivity|]); (split; [split; [discriminate|tauto]|]); split; assumption.
  - destruct t.
    + injection E as <- <- <-. exists true. split; [reflexivity|]. split; [tauto|]. exists hh, cc, false. rewrite !app_nil_r. split; [reflexivity|]. split; [split; [discriminate|tauto]|]. split; assumption.
    + fold (asked ls) in E. injection E as <- <- E3. destruct (asked ls) as [b|e] eqn:EA.
      * subst r. exists b. split; [reflexivity|]. destruct (asked_ok ls b EA) as [_ Y]. split; [rewrite Y; assert (~ taken) by (rewrite <- T; discriminate); tauto|].
        exists hh, cc, true. rewrite <- app_assoc. split; [reflexivity|]. split; [assert (~ taken) by (rewrite <- T; discriminate); tauto|]. split; assumption.
      * destruct (asked_err ls e EA) as (l & J & R). destruct (Q2 l J R).
Qed.
End Route.

(** ** Supervision *)
Definition sup_kw (sid : Z) (b : bool) : adict :=
  [("moreStatusUpdates", VBool false); ("wakeUpRequest", VBool false); ("sessionID", VB 6 sid); ("status", VInt (if b then 255 else 0)); ("duration", VInt 0)].
Definition sup_bytes (sid : Z) (b : bool) : res (list Z) := do m <- new_msg m_Supervision_Report (sup_kw sid b); compose m.
Lemma sup_bytes_ok sid b : 0 <= sid < 64 -> sup_bytes sid b = Ok [108; 2; sid; if b then 255 else 0; 0].
Proof.
  intros S. set (good := fun n => match sup_bytes (Z.of_nat n) b with Ok l => list_eqb Z.eqb l [108; 2; Z.of_nat n; if b then 255 else 0; 0] | Err _ => false end).
  assert (A : forallb good (seq 0 64) = true) by (destruct b; vm_compute; reflexivity).
  rewrite forallb_forall in A. specialize (A (Z.to_nat sid)). unfold good in A. rewrite Z2Nat.id in A by lia.
  destruct (sup_bytes sid b) as [l|]; [|discriminate A; apply in_seq; lia].
  assert (J : In (Z.to_nat sid) (seq 0 64)) by (apply in_seq; lia). specialize (A J). f_equal. clear - A. generalize dependent [108; 2; sid; if b then 255 else 0; 0].
  induction l as [|x l IH]; intros [|y l']; cbn; try discriminate; [reflexivity|]. destruct (Z.eqb_spec x y) as [->|]; [|discriminate]. intros H. f_equal. apply IH. exact H.
Qed.
Lemma sup_report_ok m sid (b : bool) : getattr m "sessionID" = VB 6 sid -> 0 <= sid < 64 ->
  exists rep, sup_report m (if b then 255 else 0) = Ok rep /\ compose rep = Ok [108; 2; sid; if b then 255 else 0; 0].
Proof.
  intros G S. pose proof (sup_bytes_ok sid b S) as H. unfold sup_bytes, sup_kw in H. unfold sup_report. rewrite G.
  destruct (new_msg _ _) as [rep|]; [|discriminate]. exists rep. auto.
Qed.
Lemma supervised_get func send d sid b : aget "sessionID" d = Some (VB 6 sid) -> 0 <= sid < 64 ->
  let m := VObj (CMsg m_Supervision_Get) d in func (getattr m "command") = Ok b ->
  exists rep, supervised func send m = ([getattr m "command"], [rep], do _ <- send rep; Ok b) /\ compose rep = Ok [108; 2; sid; if b then 255 else 0; 0].
Proof.
  intros G S m F. assert (GA : getattr m "sessionID" = VB 6 sid) by (unfold getattr, m; rewrite G; reflexivity).
  destruct (sup_report_ok m sid b GA S) as (rep & R & C). exists rep. split; [|exact C]. unfold supervised. change (is_sup m) with true. cbn iota zeta. rewrite F, R. reflexivity.
Qed.
Lemma supervised_plain func send m : (forall d, m <> VObj (CMsg m_Supervision_Get) d) -> (forall s d, m = VObj (CMsg s) d -> In s registry) -> supervised func send m = ([m], [], func m).
Proof.
  intros N R. unfold supervised. destruct (is_sup m) eqn:I; [|reflexivity]. exfalso. unfold is_sup in I. destruct m as [| | | | | | | | | | | | | | | | | | | | | | | | | c a]; try discriminate.
  destruct c as [s| | | | | | ]; try discriminate. apply String.eqb_eq in I. apply (N a). f_equal. f_equal.
  specialize (R s a eq_refl). clear - R I. unfold registry in R. cbn [In] in R.
  repeat (destruct R as [R|R]; [subst s; first [reflexivity|discriminate I]|]). destruct R.
Qed.

(** ** Storage lock *)
Definition lock_end (s : storage) (es : list lock_event) : storage := fold_left (fun s e => fst (lock_step s e)) es s.
Lemma lock_nth s a e b : nth_error (lock_run s (a ++ e :: b)) (length a) = Some (snd (lock_step (lock_end s a) e)).
Proof.
  revert s. induction a as [|x a IH]; intros s; cbn [app lock_run length nth_error lock_end fold_left].
  - destruct (lock_step s e). reflexivity.
  - destruct (lock_step s x) as (s', n) eqn:E. cbn [nth_error]. rewrite IH. reflexivity.
Qed.
Lemma no_overlap_prefix a b : no_overlap (a ++ b) -> no_overlap a.
Proof. intros H x y. split; intros ->; [apply (H x (y ++ b))|apply (H x (y ++ b))]; rewrite <- app_assoc; reflexivity. Qed.
Lemma held_snoc a e : held (a ++ [e]) <-> e = Lock \/ (e <> Unlock /\ held a).
Proof.
  split.
  - intros (x & y & E & N). destruct y as [|f y] using rev_ind.
    + apply app_inj_tail in E. destruct E as [_ ->]. auto.
    + clear IHy. rewrite app_comm_cons, app_assoc in E. apply app_inj_tail in E. destruct E as [-> <-]. right. split.
      * intros ->. apply N. apply in_or_app. right. left. reflexivity.
      * exists x, y. split; [reflexivity|]. intros J. apply N. apply in_or_app. auto.
  - intros [->|(N & x & y & -> & M)]; [exists a, []; auto|]. exists x, (y ++ [e]). split; [rewrite <- app_assoc; reflexivity|]. intros J. apply in_app_or in J. destruct J as [J|[J|[]]]; auto.
Qed.
Lemma dirty_snoc a e : dirty (a ++ [e]) <-> e = Update \/ (e <> Lock /\ dirty a).
Proof.
  split.
  - intros (x & y & E & N). destruct y as [|f y] using rev_ind.
    + apply app_inj_tail in E. destruct E as [_ ->]. auto.
    + clear IHy. rewrite app_comm_cons, app_assoc in E. apply app_inj_tail in E. destruct E as [-> <-]. right. split.
      * intros ->. apply N. apply in_or_app. right. left. reflexivity.
      * exists x, y. split; [reflexivity|]. intros J. apply N. apply in_or_app. auto.
  - intros [->|(N & x & y & -> & M)]; [exists a, []; auto|]. exists x, (y ++ [e]). split; [rewrite <- app_assoc; reflexivity|]. intros J. apply in_app_or in J. destruct J as [J|[J|[]]]; auto.
Qed.
Lemma lock_state a : no_overlap a -> match lock_end Clean a with Clean => ~ held a | LockedClean => held a /\ ~ dirty a | LockedDirty => held a /\ dirty a end.
Proof.
  induction a as [|e a IH] using rev_ind; intros H.
  - intros (x & y & E & _). destruct x; discriminate.
  - specialize (IH (no_overlap_prefix _ _ H)). unfold lock_end in *. rewrite fold_left_app. cbn [fold_left].
    destruct e; cbn [lock_step fst].
    + rewrite held_snoc, dirty_snoc. intuition congruence.
    + rewrite held_snoc. intuition congruence.
    + destruct (fold_left _ a Clean); cbn [fst]; rewrite ?held_snoc, ?dirty_snoc; intuition congruence.
Qed.
Lemma lock_notices es a e b n : no_overlap es -> es = a ++ e :: b -> notices es a n ->
  match e with
  | Lock => n = 0%nat
  | Update => (held a -> n = 0%nat) /\ (~ held a -> n = 1%nat)
  | Unlock => (dirty a -> n = 1%nat) /\ (~ dirty a -> n = 0%nat)
  end.
Proof.
  intros H -> N. unfold notices in N. rewrite lock_nth in N. injection N as <-. pose proof (lock_state a (no_overlap_prefix _ _ H)) as S.
  destruct e; cbn [lock_step snd]; [reflexivity| |].
  - destruct (H a b) as [_ HU]. specialize (HU eq_refl). destruct (lock_end Clean a); cbn; tauto.
  - destruct (lock_end Clean a); cbn; tauto.
Qed.
Lemma lock_last_chance es a x b n m : es = a ++ Update :: x ++ Unlock :: b -> ~ In Lock x -> ~ In Unlock x -> notices es a n -> notices es (a ++ Update :: x) m -> n = 1%nat \/ m = 1%nat.
Proof.
  intros -> NL NU N M. unfold notices in *. rewrite lock_nth in N. injection N as <-.
  replace (a ++ Update :: x ++ Unlock :: b) with ((a ++ Update :: x) ++ Unlock :: b) in M by (rewrite <- app_assoc; reflexivity). rewrite lock_nth in M. injection M as <-.
  unfold lock_end. rewrite fold_left_app. cbn [fold_left]. destruct (fold_left _ a Clean) eqn:F; cbn [lock_step fst snd]; [left; reflexivity| |]; right.
  all: clear F; induction x as [|e x IH]; [reflexivity|]; cbn [fold_left]; destruct e; [destruct NL; left; reflexivity|destruct NU; left; reflexivity|].
  all: apply IH; [intros J; apply NL|intros J; apply NU]; right; exact J.
Qed.

Lemma msg_class_wire m c k : hid m = 256 * c + k -> 0 <= c < 256 -> 0 <= k < 256 -> msg_class m = c.
Proof.
  intros E C K. unfold msg_class. rewrite E, Z.shiftr_div_pow2 by lia. change 255 with (Z.ones 8). rewrite Z.land_ones by lia. change (2 ^ 8) with 256.
  replace ((256 * c + k) / 256) with c by (rewrite Z.mul_comm, Z.div_add_l by lia; rewrite Z.div_small by lia; lia). apply Z.mod_small. exact C.
Qed.
Lemma handle_route_class m c k w cls ls w' st r : (exists c d, m = VObj c d) -> hid m = 256 * c + k -> 0 <= c < 256 -> 0 <= k < 256 ->
  (forall f, dget Z.eqb (hid m) (w_sess w) = Some f -> nth_error (w_futs w) f = Some FPending) ->
  handle m w cls ls = (w', st, r) -> let mine := dget Z.eqb c cls in let taken := exists rc, mine = Some rc /\ class_takes m rc in
  (forall rc, mine = Some rc -> class_quiet rc) -> (forall l, In l ls -> ~ raises l) ->
  exists b, r = Ok b /\ (b = true <-> awaited m w \/ taken \/ exists l, In l ls /\ says_yes l) /\
    (exists h c n : bool, st = SWaiters :: (if h then [SHandler] else []) ++ (if c then [SClassListeners] else []) ++ (if n then [SNodeListeners] else []) /\
      (n = true <-> ~ awaited m w /\ ~ taken) /\
      (h = true <-> named m /\ exists rc, mine = Some rc /\ r_handler rc <> None) /\
      (c = true <-> named m /\ exists rc, mine = Some rc /\ r_handler rc <> Some (Ok true))).
Proof. intros M H C K O E. rewrite <- (msg_class_wire m c k H C K). exact (handle_route m w cls ls w' st r M O E). Qed.
