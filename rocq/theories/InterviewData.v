(** Proofs about interviews: what the classes know afterwards. *)
From Coq Require Import String ZArith List Bool Lia.
From Verif Require Import Py Schema Registry Codec SpecBits SpecDecode DecodeProofs Waiter Conn ConnLemmas NodeReq SpecNodeReq NodeReqProofs NodeFresh ClassProofs InterviewM SpecInterview InterviewProofs.
Import ListNotations.
Open Scope list_scope.
Open Scope string_scope.
Open Scope list_scope.
Open Scope Z_scope.

(** ** reports *)
Definition int_size (t : aty) : option nat := match t with TInt false sz => Some sz | _ => None end.
Definition int_class (s : schema) : bool := flat_class s && forallb (fun a => match int_size (a_ty a) with Some _ => true | None => false end) (s_attrs s).
(** the fields of [m] are, in order, the numbers [zs], and the others are missing *)
Definition fields (l : list attr) (m : val) (zs : list Z) : Prop :=
  forall i a sz, nth_error l i = Some a -> a_ty a = TInt false sz -> getattr m (a_name a) = match nth_error zs i with Some z => VI false sz z | None => VNone end.
Lemma piece_name n l : forall cs c, last_piece n l cs = Some c -> In n (map a_name l).
Proof.
  induction l as [|a l IH]; intros [|c0 cs] c H; try discriminate. cbn in H. destruct (last_piece n l cs) eqn:E; [right; eapply IH; exact E|].
  destruct (String.eqb_spec n (a_name a)) as [->|]; [left; reflexivity|discriminate].
Qed.
Lemma piece_nth l : NoDup (map a_name l) -> forall cs i a, nth_error l i = Some a -> last_piece (a_name a) l cs = nth_error cs i.
Proof.
  induction l as [|b l IH]; intros ND cs i a H; [destruct i; discriminate|]. inversion ND as [|? ? NI ND']; subst. destruct cs as [|c cs]; [destruct i; reflexivity|].
  cbn [last_piece]. destruct i as [|i].
  - injection H as ->. destruct (last_piece (a_name a) l cs) eqn:E; [destruct NI; eapply piece_name; exact E|]. rewrite String.eqb_refl. reflexivity.
  - cbn in H. rewrite (IH ND' cs i a H). cbn. destruct (nth_error cs i) eqn:E; [reflexivity|]. destruct (String.eqb_spec (a_name a) (a_name b)) as [Q|]; [|reflexivity].
    destruct NI. rewrite <- Q. apply in_map. eapply nth_error_In. exact H.
Qed.
Lemma declared_nth l : NoDup (map a_name l) -> forall i a, nth_error l i = Some a -> declared (a_name a) l = Some (a_ty a).
Proof.
  induction l as [|b l IH]; intros ND i a H; [destruct i; discriminate|]. inversion ND as [|? ? NI ND']; subst. cbn. destruct i as [|i].
  - injection H as ->. rewrite String.eqb_refl. reflexivity.
  - cbn in H. destruct (String.eqb_spec (a_name a) (a_name b)) as [Q|]; [|exact (IH ND' i a H)]. destruct NI. rewrite <- Q. apply in_map. eapply nth_error_In. exact H.
Qed.
Lemma report_fields s m bs : In s registry -> flat_class s = true -> NoDup (map a_name (s_attrs s)) -> byte (s_cls s) -> byte (s_cmd s) -> s_cls s <> 0 -> s_hid s = 256 * s_cls s + s_cmd s ->
  Forall byte bs -> decode bs = Ok m -> hid m = s_hid s -> exists zs, fields (s_attrs s) m zs.
Proof.
  intros J F ND B1 B2 NZ HS BB D H. destruct bs as [|c [|k p]]; try (rewrite decode_short in D by (cbn; lia); injection D as <-; cbn [hid] in H; unfold byte in *; lia).
  assert (BO : bytes_ok (c :: k :: p)) by exact BB. pose proof (decode_id c k p m BO D) as I. inversion BB as [|? ? C1 C2]; subst. inversion C2 as [|? ? K1 K2]; subst.
  assert (c = s_cls s /\ k = s_cmd s) as [-> ->] by (unfold byte in *; lia).
  pose proof (decode_flat s p J F K2) as X. destruct (cut (s_attrs s) (bits_of p)) as [cs|]; [|congruence]. destruct X as (d & X1 & X2). rewrite D in X1. injection X1 as ->.
  exists (map num cs). intros i a sz E T. specialize (X2 (a_name a)). rewrite (piece_nth _ ND cs i a E) in X2. rewrite getattr_spec, (declared_nth _ ND i a E), T. rewrite nth_error_map.
  destruct (nth_error cs i) as [c|]; cbn [option_map].
  - destruct X2 as (v & t & Y1 & Y2 & Y3). rewrite (declared_nth _ ND i a E), T in Y2. injection Y2 as <-. inversion Y3; subst. rewrite Y1. reflexivity.
  - rewrite X2. reflexivity.
Qed.
Ltac reg := unfold registry; repeat (first [left; reflexivity|right]).
Lemma version_fields m bs : Forall byte bs -> decode bs = Ok m -> hid m = s_hid m_Version_VersionCommandClassReport -> exists zs, fields (s_attrs m_Version_VersionCommandClassReport) m zs.
Proof. apply report_fields; [reg|reflexivity|repeat constructor; cbn; intuition discriminate|unfold byte; cbn; lia|unfold byte; cbn; lia|cbn; lia|reflexivity]. Qed.
Lemma own_fields id g r a m bs : body_of id = BCopy g r a -> Forall byte bs -> decode bs = Ok m -> hid m = s_hid r -> exists zs, fields a m zs.
Proof.
  unfold body_of. destruct (id =? 134); [intros E; injection E as <- <- <-; apply (report_fields m_Version_VersionReport)|].
  1-7: first [reg; fail|reflexivity|repeat constructor; cbn; intuition discriminate|unfold byte; cbn; lia|cbn; lia|idtac].
  destruct (id =? 94); [intros E; injection E as <- <- <-; apply (report_fields m_ZwavePlusInfo_Report)|].
  1-7: first [reg; fail|reflexivity|repeat constructor; cbn; intuition discriminate|unfold byte; cbn; lia|cbn; lia|idtac].
  destruct (id =? 114); [intros E; injection E as <- <- <-; apply (report_fields m_ManufacturerSpecific_Report)|].
  1-7: first [reg; fail|reflexivity|repeat constructor; cbn; intuition discriminate|unfold byte; cbn; lia|cbn; lia|idtac].
  destruct (_ || _); discriminate.
Qed.

(** ** copying a report *)
Definition ints (l : list attr) : Prop := NoDup (map a_name l) /\ forall a, In a l -> exists sz, a_ty a = TInt false sz.
Definition typed (l : list attr) (d : adict) : Prop := forall a v, In a l -> aget (a_name a) d = Some v -> exists sz z, a_ty a = TInt false sz /\ v = VI false sz z.
Lemma find_nodup l a : NoDup (map a_name l) -> In a l -> find_attr (a_name a) l = Some a.
Proof.
  induction l as [|b l IH]; intros ND J; [destruct J|]. inversion ND as [|? ? NI ND']; subst. cbn. destruct J as [->|J]; [rewrite String.eqb_refl; reflexivity|].
  destruct (String.eqb_spec (a_name a) (a_name b)) as [Q|]; [destruct NI; rewrite <- Q; apply in_map; exact J|]. exact (IH ND' J).
Qed.
Lemma setattr_int l a sz z d : ints l -> typed l d -> In a l -> a_ty a = TInt false sz ->
  exists d' o, setattr l (a_name a) (VI false sz z) d = Ok (d', o) /\ (forall f, aget f d' = if String.eqb f (a_name a) then Some (VI false sz z) else aget f d).
Proof.
  intros [ND TY] TD J T. unfold setattr. rewrite (find_nodup l a ND J), T. unfold setattr_coerce. cbn [isinst Bool.eqb andb]. rewrite Nat.eqb_refl. cbn [bind].
  destruct (aget (a_name a) d) as [old|] eqn:E.
  - destruct (TD a old J E) as (sz' & z' & T' & ->). assert (sz' = sz) by congruence. subst sz'.
    assert (Q : py_eq (VI false sz z') (VI false sz z) = Ok (z' =? z)) by reflexivity. rewrite Q. cbn [bind]. destruct (Z.eqb_spec z' z) as [->|].
    + do 2 eexists. split; [reflexivity|]. intros f. destruct (String.eqb_spec f (a_name a)) as [->|]; auto.
    + do 2 eexists. split; [reflexivity|]. intros f. apply aget_aset.
  - do 2 eexists. split; [reflexivity|]. intros f. apply aget_aset.
Qed.
Lemma setattr_none l a sz d : ints l -> In a l -> a_ty a = TInt false sz -> setattr l (a_name a) VNone d = Err EType.
Proof. intros [ND TY] J T. unfold setattr. rewrite (find_nodup l a ND J), T. reflexivity. Qed.
Lemma typed_set l d d' a sz z : ints l -> typed l d -> In a l -> a_ty a = TInt false sz ->
  (forall f, aget f d' = if String.eqb f (a_name a) then Some (VI false sz z) else aget f d) -> typed l d'.
Proof.
  intros [ND TY] TD J T H b v JB E. rewrite H in E. destruct (String.eqb_spec (a_name b) (a_name a)) as [Q|]; [|exact (TD b v JB E)].
  assert (b = a). { pose proof (find_nodup l a ND J) as F1. pose proof (find_nodup l b ND JB) as F2. rewrite Q in F2. congruence. } subst b. injection E as <-. eauto.
Qed.
(** the fields from number [k] on *)
Lemma copy_fields l m zs : ints l -> fields l m zs -> forall todo k d d' x, (forall i, nth_error todo i = nth_error l (k + i)) -> typed l d -> copy l todo m d = (d', x) ->
  typed l d' /\ (forall i a sz, nth_error l i = Some a -> a_ty a = TInt false sz -> aget (a_name a) d' = if (k <=? i)%nat then match nth_error zs i with Some z => Some (VI false sz z) | None => aget (a_name a) d end else aget (a_name a) d) /\
  (forall f, ~ In f (map a_name l) -> aget f d' = aget f d) /\
  (x = Ok tt \/ (x = Err EType /\ (List.length zs < List.length l)%nat)) /\ (x = Ok tt -> (k + List.length todo <= List.length zs)%nat \/ todo = []).
Proof.
  intros IL FM. induction todo as [|a todo IH]; intros k d d' x SUF TD C.
  - cbn in C. injection C as <- <-. split; [exact TD|]. split; [|split; [auto|]; split; auto].
    intros i b sz E T. destruct (Nat.leb_spec k i); [|reflexivity]. specialize (SUF (i - k)%nat). replace (k + (i - k))%nat with i in SUF by lia. rewrite E in SUF. destruct (i - k)%nat; discriminate.
  - assert (EK : nth_error l k = Some a) by (specialize (SUF O); rewrite Nat.add_0_r in SUF; symmetry; exact SUF).
    assert (JA : In a l) by (eapply nth_error_In; exact EK). destruct IL as [ND TY]. destruct (TY a JA) as [sz T]. assert (IL : ints l) by (split; assumption).
    cbn [copy] in C. rewrite (FM k a sz EK T) in C. destruct (nth_error zs k) as [z|] eqn:EZ.
    + destruct (setattr_int l a sz z d IL TD JA T) as (d1 & o & S1 & S2). rewrite S1 in C.
      assert (SUF' : forall i, nth_error todo i = nth_error l (S k + i)) by (intros i; specialize (SUF (S i)); cbn in SUF; rewrite SUF; f_equal; lia).
      destruct (IH (S k) d1 d' x SUF' (typed_set l d d1 a sz z IL TD JA T S2) C) as (I1 & I2 & I3 & I4 & I5). split; [exact I1|]. split; [|split; [|split; [exact I4|]]].
      * intros i b szb E Tb. rewrite (I2 i b szb E Tb). assert (NB : i <> k -> aget (a_name b) d1 = aget (a_name b) d).
        { intros N. rewrite S2. destruct (String.eqb_spec (a_name b) (a_name a)) as [Q|]; [|reflexivity]. destruct N.
          apply (proj1 (NoDup_nth_error (map a_name l)) ND); [rewrite map_length; apply nth_lt in E; exact E|]. rewrite !nth_error_map, E, EK. cbn. congruence. }
        destruct (Nat.eq_dec i k) as [->|N].
        -- assert (b = a) by congruence. subst b. assert (szb = sz) by congruence. subst szb. rewrite EZ. replace (S k <=? k)%nat with false by (symmetry; apply Nat.leb_gt; lia). rewrite Nat.leb_refl. rewrite S2, String.eqb_refl. reflexivity.
        -- rewrite (NB N). destruct (Nat.leb_spec (S k) i), (Nat.leb_spec k i); try reflexivity; lia.
      * intros f NF. rewrite (I3 f NF), S2. destruct (String.eqb_spec f (a_name a)) as [->|]; [|reflexivity]. destruct NF. apply in_map. exact JA.
      * intros XE. destruct (I5 XE) as [Q|Q]; [left; cbn; lia|]. subst todo. left. cbn. apply nth_lt in EZ. lia.
    + rewrite (setattr_none l a sz d IL JA T) in C. injection C as <- <-. apply nth_error_None in EZ. split; [exact TD|]. split; [|split; [auto|split; [|discriminate]]].
      * intros i b szb E Tb. destruct (Nat.leb_spec k i); [|reflexivity]. replace (nth_error zs i) with (@None Z) by (symmetry; apply nth_error_None; lia). reflexivity.
      * right. split; [reflexivity|]. apply nth_lt in EK. lia.
Qed.
Lemma own_ints id g r a : body_of id = BCopy g r a -> ints a /\ a <> [].
Proof.
  unfold body_of. destruct (id =? 134); [intros E; injection E as <- <- <-|destruct (id =? 94); [intros E; injection E as <- <- <-|destruct (id =? 114); [intros E; injection E as <- <- <-|destruct (_ || _); discriminate]]].
  all: split; [|discriminate]; split; [repeat constructor; cbn; intuition discriminate|intros b J; cbn in J; repeat (destruct J as [<-|J]; [eexists; reflexivity|]); destruct J].
Qed.

(** ** answers *)
Fixpoint opens (w : list Z) (open : list nat) (tr : itrace) : list nat :=
  match tr with
  | [] => open
  | (_, OAsk _ u q) :: tr' => opens w (if says q w then u :: open else open) tr'
  | _ :: tr' => opens w open tr'
  end.
Lemma answers_app w a : forall open b, answers_in w open (a ++ b) = answers_in w open a ++ answers_in w (opens w open a) b.
Proof.
  induction a as [|[n o] a IH]; intros open b; [reflexivity|]. cbn. destruct o as [o|t c|t id|t u q|t id|id|t r]; try apply IH.
  destruct o as [t c|t r|m r|t r]; try apply IH. destruct r; try apply IH. destruct (existsb (Nat.eqb t) open); [cbn; f_equal|]; apply IH.
Qed.
Lemma opens_app w a : forall open b, opens w open (a ++ b) = opens w (opens w open a) b.
Proof. induction a as [|[n o] a IH]; intros open b; [reflexivity|]. cbn. destruct o; apply IH. Qed.
Lemma opens_in w tr : forall open u, In u (opens w open tr) <-> In u open \/ exists n t q, In (n, OAsk t u q) tr /\ says q w = true.
Proof.
  induction tr as [|[n o] tr IH]; intros open u; [cbn; split; [auto|intros [H|(n & t & q & [] & _)]; exact H]|].
  assert (OTHER : (forall t u q, o <> OAsk t u q) -> In u open \/ (exists n0 t q, In (n0, OAsk t u q) tr /\ says q w = true) <-> In u open \/ exists n0 t q, In (n0, OAsk t u q) ((n, o) :: tr) /\ says q w = true).
  { intros N. split; (intros [H|(n0 & t & q & J & K)]; [auto|]); right; exists n0, t, q; (split; [|exact K]); [right; exact J|]. destruct J as [J|J]; [|exact J]. injection J as _ ->. destruct (N t u q eq_refl). }
  cbn [opens]. destruct o as [o|t c|t id|t u' q|t id|id|t r]; try (rewrite IH; apply OTHER; intros; discriminate).
  rewrite IH. split.
  - intros [H|(n0 & t0 & q0 & J & K)]; [|right; exists n0, t0, q0; split; [right; exact J|exact K]]. destruct (says q w) eqn:E; [|auto]. destruct H as [->|H]; [|auto].
    right. exists n, t, q. split; [left; reflexivity|exact E].
  - intros [H|(n0 & t0 & q0 & [J|J] & K)]; [left; destruct (says q w); [right|]; exact H| |right; exists n0, t0, q0; auto]. injection J as -> -> -> ->. rewrite K. left. left. reflexivity.
Qed.
Lemma answers_plain w T os : forall open, Forall plain os -> answers_in w open (istamp T os) = [].
Proof. induction os as [|o os IH]; intros open H; [reflexivity|]. inversion H as [|? ? P Q]; subst. cbn. destruct o; try destruct P; apply IH, Q. Qed.
Lemma answers_none w T os : forall open, (forall u m, ~ In (NRet u (RMsg m)) os) -> answers_in w open (istamp T (map ONet os)) = [].
Proof.
  induction os as [|o os IH]; intros open H; [reflexivity|]. cbn. assert (H' : forall u m, ~ In (NRet u (RMsg m)) os) by (intros u m J; apply (H u m); right; exact J).
  destruct o as [t c|t r|m r|t r]; try (apply IH, H'). destruct r as [b|m|e]; try (apply IH, H'). destruct (H t m). left. reflexivity.
Qed.
Lemma opens_nets w T os : forall open, opens w open (istamp T (map ONet os)) = open.
Proof. induction os as [|o os IH]; intros open; [reflexivity|]. apply IH. Qed.
Lemma opens_plain w T os : forall open, Forall plain os -> opens w open (istamp T os) = open.
Proof. induction os as [|o os IH]; intros open H; [reflexivity|]. inversion H as [|? ? P Q]; subst. cbn. destruct o; try destruct P; apply IH, Q. Qed.

(** a request returns once *)
Lemma ret_open s e n osn u r : nstep s e = Some (n, osn) -> In (NRet u r) osn -> exists x, nth_error (n_tasks s) u = Some x /\ forall r, n_pc x <> NDone r.
Proof.
  intros H J. destruct e as [dt|c|t v|m|t|t|t]; cbn [nstep] in H.
  - destruct (0 <=? dt); [|discriminate]. injection H as <- <-. destruct J.
  - destruct c; [destruct (add_session h (n_w s))|]; injection H as <- <-; destruct J as [J|[]]; discriminate.
  - destruct (nth_error (n_tasks s) t) as [[[h tmo|h tmo] []]|] eqn:E; try discriminate.
    assert (t = u) by (destruct v as [[]|e]; unfold n_finish in H; injection H as <- <-; cbn in J; intuition congruence).
    subst t. eexists. split; [exact E|]. intros r'; discriminate.
  - destruct m; try discriminate. destruct (message_received _ _). injection H as <- <-. destruct J as [J|[]]; discriminate.
  - destruct (nth_error (n_tasks s) t) as [[c [|h f dl []| |]]|]; try discriminate. destruct (dl <=? n_now s); [|discriminate]. injection H as <- <-. destruct J.
  - destruct (nth_error (n_tasks s) t) as [[c [|h f dl ph|h f|]]|] eqn:E; try discriminate.
    + assert (t = u). { unfold n_resume, n_finish in H. destruct (nth_error (w_futs (n_w s)) f) as [[|v|]|]; destruct ph; try discriminate H; injection H as <- <-; cbn in J; intuition congruence. }
      subst t. eexists. split; [exact E|]. intros r'; discriminate.
    + unfold n_finish in H. injection H as <- <-. destruct J as [J|[]]. injection J as -> _. eexists. split; [exact E|]. intros r'; discriminate.
  - destruct (nth_error (n_tasks s) t) as [[c [|h f dl ph|h f|]]|] eqn:E; try discriminate; unfold n_finish in H; injection H as <- <-; [|destruct J]. destruct J as [J|[]]. injection J as -> _. eexists. split; [exact E|]. intros r'; discriminate.
Qed.

(** ** the answers of a step *)
Lemma top_one fs q h q' h' : top fs q h -> top fs q' h' -> q = q' /\ h = h'.
Proof.
  destruct fs as [|[id|id|id|rest] fs]; cbn; try contradiction.
  - intros [-> ->] [-> ->]. auto.
  - intros (g & r & a & B & -> & ->) (g' & r' & a' & B' & -> & ->). rewrite B in B'. injection B' as <- <- <-. auto.
Qed.
Lemma tail_answers w T open t s1 s2 os2 x : calm t s1 s2 os2 x -> answers_in w open (istamp T (os2 ++ fin t x)) = [].
Proof.
  intros [_ _ _ _ [(_ & E2 & _)|(os0 & q & h & fs & -> & E2 & _ & -> & _)]].
  - apply answers_plain. apply Forall_app. split; [eapply forall_plain; exact E2|apply fin_plain].
  - cbn [fin]. rewrite app_nil_r, stamp_app, answers_app, answers_plain by (eapply forall_plain; exact E2). reflexivity.
Qed.
Lemma last_answer w T open pre u r : (forall u' r', ~ In (NRet u' r') pre) ->
  answers_in w open (istamp T (map ONet (pre ++ [NRet u r]))) = match r with RMsg m => if existsb (Nat.eqb u) open then [m] else [] | _ => [] end.
Proof.
  intros N. rewrite map_app, stamp_app, answers_app, opens_nets, answers_none by (intros u' m' J; exact (N _ _ J)). cbn. destruct r as [b|m|e]; try reflexivity.
Qed.
Lemma nat_mem u l : existsb (Nat.eqb u) l = true <-> In u l.
Proof. rewrite existsb_exists. split; [intros (x & J & E); apply Nat.eqb_eq in E; subst; exact J|intros J; exists u; split; [exact J|apply Nat.eqb_refl]]. Qed.
Lemma returns_open s tr e n osn u r : linked s tr -> nstep (i_net s) e = Some (n, osn) -> In (NRet u r) osn -> forall n0 r0, ~ In (n0, ONet (NRet u r0)) tr.
Proof.
  intros L ST J n0 r0 K. destruct (l_net _ _ L) as [es X]. apply in_nets in K. destruct (ret_done _ _ _ X _ _ _ K) as (x & A & B). destruct (ret_open _ _ _ _ _ _ ST J) as (y & C & D).
  rewrite A in C. injection C as <-. exact (D _ B).
Qed.
Lemma quiet_answers s tr e n osn w : linked s tr -> nstep (i_net s) e = Some (n, osn) ->
  (forall u r t fs, In (NRet u r) osn -> nth_error (i_tasks s) t <> Some (ISusp (WReq u) fs)) ->
  answers_in w (opens w [] tr) (istamp (n_now (i_net s)) (map ONet osn)) = [].
Proof.
  intros L ST NW. destruct (one_return _ _ _ _ ST) as [[_ NR]|(pre & u & r & -> & R & NP & _)]; [apply answers_none; intros u m; apply NR|].
  rewrite last_answer by exact NP. destruct r as [b|m|x]; try reflexivity. destruct (existsb (Nat.eqb u) (opens w [] tr)) eqn:E; [|reflexivity].
  apply nat_mem, opens_in in E as [[]|(n0 & t & q & J & S)]. destruct (l_ask _ _ L _ _ _ _ J) as [_ [(fs & h & B & _)|(n1 & r & B)]].
  - destruct (NW u (RMsg m) t fs); [apply in_or_app; right; left; reflexivity|exact B].
  - destruct (returns_open _ _ _ _ _ u (RMsg m) L ST) with (n0 := n1) (r0 := r); [apply in_or_app; right; left; reflexivity|exact B].
Qed.
Lemma asked_top s tr u t fs q h w : linked s tr -> nth_error (i_tasks s) t = Some (ISusp (WReq u) fs) -> top fs q h -> (forall n0 r0, ~ In (n0, ONet (NRet u r0)) tr) ->
  existsb (Nat.eqb u) (opens w [] tr) = says q w.
Proof.
  intros L Q T NR. apply Bool.eq_iff_eq_true. rewrite nat_mem, opens_in. split.
  - intros [[]|(n0 & t' & q' & J & S)]. destruct (l_ask _ _ L _ _ _ _ J) as [_ [(fs' & h' & B & T')|(n1 & r & B)]]; [|destruct (NR _ _ B)].
    assert (t' = t) by exact (l_uniq _ _ L _ _ _ _ _ B Q). subst t'. rewrite Q in B. injection B as <-. destruct (top_one _ _ _ _ _ T T') as [-> _]. exact S.
  - intros S. right. destruct (l_susp _ _ L _ _ _ Q) as (p & q' & h' & n0 & _ & _ & J & T'). destruct (top_one _ _ _ _ _ T T') as [<- _]. eauto.
Qed.
Lemma turn_answers s tr e n osn t s1 hd s2 os2 x w : linked s tr -> turn s e n osn t s1 hd (s2, os2, x) -> calm t s1 s2 os2 x ->
  answers_in w (opens w [] tr) (istamp (n_now (i_net s)) (map ONet osn ++ hd ++ os2 ++ fin t x)) =
  match returned osn with
  | Some (u, RMsg m) => match nth_error (i_tasks s) t with
                        | Some (ISusp (WReq u') fs) => match fs with
                            | FVersion id :: _ => if says (version_q id) w then [m] else []
                            | FBody id :: _ => match body_of id with BCopy g _ _ => if says (VObj (CMsg g) []) w then [m] else [] | _ => [] end
                            | _ => [] end
                        | _ => []
                        end
  | _ => []
  end.
Proof.
  intros L TN C. destruct (turn_net _ _ _ _ _ _ _ _ TN) as (N1 & HP & NT & NS). rewrite stamp_app, answers_app, opens_nets, stamp_app, answers_app, (opens_plain w _ hd) by exact HP.
  rewrite (answers_plain w _ hd) by exact HP. rewrite (tail_answers w _ _ t s1 s2 os2 x C), !app_nil_r. destruct NS as [[_ ->]|(e' & u & r & fs & _ & ST & Q & R & ONE)]; [reflexivity|].
  rewrite R, Q. destruct (one_return _ _ _ _ ST) as [[R' _]|(pre & u0 & r0 & -> & R' & NP & NN)]; [congruence|]. rewrite R in R'. injection R' as <- <-. rewrite last_answer by exact NP.
  destruct r as [b|m|y]; try reflexivity.
  destruct (l_susp _ _ L _ _ _ Q) as (p & q & h & n0 & _ & _ & J & T). rewrite (asked_top s tr u t fs q h w L Q T).
  - destruct fs as [|[id|id|id|rest] fs]; cbn [top] in T; try contradiction; [destruct T as [-> _]; reflexivity|]. destruct T as (g & rp & a & B & -> & _). rewrite B. reflexivity.
  - eapply returns_open; [exact L|exact ST|]. apply in_or_app. right. left. reflexivity.
Qed.
(** what a request returns was received after its command was acknowledged *)
Lemma reply s tr e n osn u m t fs : linked s tr -> nstep (i_net s) e = Some (n, osn) -> In (NRet u (RMsg m)) osn -> nth_error (i_tasks s) t = Some (ISusp (WReq u) fs) ->
  exists q h, top fs q h /\ hid m = h /\ exists n0, In (n0, NRecv m (Ok true)) (since_sent u (nets tr ++ nstamp (n_now (i_net s)) osn)).
Proof.
  intros L ST J Q. destruct (l_susp _ _ L _ _ _ Q) as (p & q & h & n0 & P1 & P2 & _ & T). exists q, h. split; [exact T|]. destruct (l_net _ _ L) as [es X].
  assert (X' : nexec nstate0 (es ++ [e]) n (nets tr ++ nstamp (n_now (i_net s)) osn)) by (econstructor; eassumption).
  destruct (step_tasks _ _ _ _ ST) as (KT & _ & _ & _ & OR & _). destruct (OR u _ J) as (y & Y1 & Y2). destruct (KT u _ P1) as (y' & Y3 & Y4 & _). rewrite Y1 in Y3. injection Y3 as <-.
  destruct y as [c pc]. cbn in Y2, Y4. subst c pc. pose proof (f_task _ _ (exec_fresh _ _ _ X') u h 3000 _ Y1) as F. cbn in F. destruct F as [_ [F1 F2]]. auto.
Qed.
Lemma reply_wire s tr e n osn u m t fs hd : linked s tr -> nstep (i_net s) e = Some (n, osn) -> In (NRet u (RMsg m)) osn -> nth_error (i_tasks s) t = Some (ISusp (WReq u) fs) ->
  from_wire (tr ++ istamp (n_now (i_net s)) (map ONet osn ++ hd)) -> exists q h bs, top fs q h /\ hid m = h /\ Forall byte bs /\ decode bs = Ok m.
Proof.
  intros L ST J Q W. destruct (reply _ _ _ _ _ _ _ _ _ L ST J Q) as (q & h & T & H & n0 & R). apply since_split in R as (a & T0 & b & E & R).
  assert (In (n0, ONet (NRecv m (Ok true))) (tr ++ istamp (n_now (i_net s)) (map ONet osn ++ hd))).
  { apply in_nets. rewrite nets_app, stamp_app, nets_app, nets_map, app_assoc, E. apply in_or_app. left. apply in_or_app. right. right. exact R. }
  destruct (W _ _ _ H0) as (bs & B1 & B2). exists q, h, bs. auto.
Qed.

(** ** what a step records *)
Lemma version_inv z id : compose (version_q z) = Ok (version_question id) -> z = id.
Proof.
  intros H. destruct ((0 <=? z) && (z <? 256)) eqn:B.
  - rewrite version_wire in H by (unfold byte; lia). injection H as ->. reflexivity.
  - exfalso. assert (Q : to_bytes z 1 false = Err EOverflow) by (unfold to_bytes; replace (1 <? 0) with false by reflexivity; replace (2 ^ (8 * 1)) with 256 by reflexivity; cbv zeta; rewrite B; reflexivity).
    revert H. unfold compose, version_q, compose_with, version_question. cbn -[to_bytes Z.ltb]. change (Z.of_nat 1) with 1. unfold BitStream.addBytes. rewrite Q. cbn. discriminate.
Qed.
Lemma own_wire id g r a : body_of id = BCopy g r a -> compose (VObj (CMsg g) []) = Ok [s_cls g; s_cmd g] /\ s_cls g = id /\ [s_cls g; s_cmd g] = (if id =? 134 then [134; 17] else if id =? 94 then [94; 1] else [114; 4]).
Proof.
  unfold body_of. destruct (Z.eqb_spec id 134) as [->|]; [intros E; injection E as <- <- <-; repeat split; reflexivity|].
  destruct (Z.eqb_spec id 94) as [->|]; [intros E; injection E as <- <- <-; repeat split; reflexivity|].
  destruct (Z.eqb_spec id 114) as [->|]; [intros E; injection E as <- <- <-; repeat split; reflexivity|]. destruct (_ || _); discriminate.
Qed.
Lemma body_end_data id x s s1 hd r1 : body_end id x s = (s1, hd, XRes r1) -> forall j, k_version (i_cls s1 j) = k_version (i_cls s j) /\ k_attrs (i_cls s1 j) = k_attrs (i_cls s j).
Proof.
  unfold body_end. destruct x as [rv|e].
  - intros H j. injection H as <- _ _. destruct rv as [[]|]; cbn; auto; destruct (Z.eqb_spec j id) as [->|]; auto.
  - intros H j. assert (s = s1) by (destruct e; injection H as <- _ _; reflexivity). subst s1. auto.
Qed.
(** the fields of the reports concerned *)
Definition report_ok (fs : list iframe) (m : val) : Prop :=
  match fs with
  | FVersion _ :: _ => exists zs, fields (s_attrs m_Version_VersionCommandClassReport) m zs
  | FBody id :: _ => forall g r a, body_of id = BCopy g r a -> exists zs, fields a m zs
  | _ => True
  end.
Lemma reply_ok s tr e n osn u m t fs hd : linked s tr -> nstep (i_net s) e = Some (n, osn) -> In (NRet u (RMsg m)) osn -> nth_error (i_tasks s) t = Some (ISusp (WReq u) fs) ->
  from_wire (tr ++ istamp (n_now (i_net s)) (map ONet osn ++ hd)) -> report_ok fs m.
Proof.
  intros L ST J Q W. destruct (reply_wire _ _ _ _ _ _ _ _ _ _ L ST J Q W) as (q & h & bs & T & H & B & D). unfold report_ok. destruct fs as [|[id|id|id|rest] fs]; auto; cbn [top] in T.
  - destruct T as [_ ->]. eapply version_fields; eassumption.
  - intros g r a E. destruct T as (g' & r' & a' & E' & _ & ->). rewrite E in E'. injection E' as <- <- <-. eapply own_fields; eassumption.
Qed.
Lemma version_first id id' m s s1 hd r1 fs : report_ok (FVersion id' :: fs) m -> got_version id' (RMsg m) s = (s1, hd, XRes r1) -> byte id ->
  k_version (i_cls s1 id) = last (values "commandClassVersion" (if says (version_q id') (version_question id) then [m] else [])) (k_version (i_cls s id)) /\ (forall j, k_attrs (i_cls s1 j) = k_attrs (i_cls s j)).
Proof.
  intros [zs F] G B. pose proof (F 1%nat _ 1%nat eq_refl eq_refl) as F1. cbn [a_name] in F1. unfold got_version in G. rewrite F1 in G.
  assert (SY : says (version_q id') (version_question id) = (id =? id')).
  { apply Bool.eq_iff_eq_true. rewrite says_eq, Z.eqb_eq. split; [intros E; apply version_inv in E; congruence|intros <-; apply version_wire; exact B]. }
  rewrite SY. destruct (nth_error zs 1) as [z|]; cbn [to_int] in G; injection G as <- <- <-.
  - split; [|intros j; cbn; destruct (Z.eqb_spec j id') as [->|]; reflexivity]. cbn [set_cls i_cls]. destruct (id =? id'); [|reflexivity]. cbn [values flat_map]. rewrite F1. reflexivity.
  - split; [|reflexivity]. destruct (id =? id'); [|reflexivity]. cbn [values flat_map]. rewrite F1. reflexivity.
Qed.
Lemma report_first id a m s s1 hd r1 : got_report id a (RMsg m) s = (s1, hd, XRes r1) ->
  (forall j, k_version (i_cls s1 j) = k_version (i_cls s j)) /\ (forall j, j <> id -> k_attrs (i_cls s1 j) = k_attrs (i_cls s j)) /\
  exists d x, copy a a m (k_attrs (i_cls s id)) = (d, x) /\ k_attrs (i_cls s1 id) = d /\
    ((x = Ok tt /\ hd = [OUpdated id] /\ r1 = Ok (VRet None) /\ (forall j, k_interviewed (i_cls s1 j) = if j =? id then true else k_interviewed (i_cls s j))) \/
     exists y, x = Err y /\ hd = [] /\ (forall j, k_interviewed (i_cls s1 j) = k_interviewed (i_cls s j)) /\ (y <> ETimeout -> r1 = Err y)).
Proof.
  unfold got_report. destruct (copy a a m (k_attrs (i_cls s id))) as [d x] eqn:C. intros H. pose proof (body_end_data _ _ _ _ _ _ H) as D.
  split; [intros j; destruct (D j) as [-> _]; cbn; destruct (Z.eqb_spec j id) as [->|]; reflexivity|].
  split; [intros j N; destruct (D j) as [_ ->]; cbn; destruct (Z.eqb_spec j id); [contradiction|reflexivity]|]. exists d, x. split; [reflexivity|].
  split; [destruct (D id) as [_ ->]; cbn; rewrite Z.eqb_refl; reflexivity|]. destruct x as [[]|y].
  - left. split; [reflexivity|]. cbn [bind body_end] in H. injection H as <- <- <-. repeat split. intros j. cbn. destruct (Z.eqb_spec j id) as [->|]; reflexivity.
  - right. exists y. split; [reflexivity|]. cbn [bind body_end] in H. split; [|split].
    + destruct y; injection H as _ <- _; reflexivity.
    + intros j. assert (E : s1 = set_cls id (mkK (k_version (i_cls s id)) (k_interviewed (i_cls s id)) d) s) by (destruct y; injection H as <- _ _; reflexivity). rewrite E. cbn. destruct (Z.eqb_spec j id) as [->|]; reflexivity.
    + intros N. destruct y; try congruence; injection H as _ _ <-; reflexivity.
Qed.
Lemma first_else fs r s s1 hd r1 : first fs r s = (s1, hd, XRes r1) -> (forall m, r <> RMsg m) -> forall j, k_version (i_cls s1 j) = k_version (i_cls s j) /\ k_attrs (i_cls s1 j) = k_attrs (i_cls s j).
Proof.
  intros F N j. unfold first in F. destruct fs as [|[id|id|id|rest] fs]; try (injection F as <- _ _; auto; fail).
  - unfold got_version in F. destruct r as [b|m|e]; [injection F as <- _ _; auto|destruct (N m eq_refl)|]. assert (s1 = s) by (destruct e; injection F as <- _ _; reflexivity). subst. auto.
  - destruct (body_of id) as [g rp a| |]; try (injection F as <- _ _; auto; fail). unfold got_report in F. destruct r as [b|m|e]; [injection F as <- _ _; auto|destruct (N m eq_refl)|].
    exact (body_end_data _ _ _ _ _ _ F j).
Qed.

Definition new (w : list Z) (s : istate) (tr : itrace) (os : list iobs) : list val := answers_in w (opens w [] tr) (istamp (n_now (i_net s)) os).
Lemma version_step s tr e s' os id : linked s tr -> istep s e = Some (s', os) -> from_wire (tr ++ istamp (n_now (i_net s)) os) -> byte id ->
  k_version (i_cls s' id) = last (values "commandClassVersion" (new (version_question id) s tr os)) (k_version (i_cls s id)).
Proof.
  intros L H W B. unfold new. destruct (step_cases s tr e s' os L H) as [(e' & n & osn & -> & ST & -> & -> & NW)|(n & osn & t & s1 & hd & s2 & os2 & x & TN & C & -> & ->)].
  - rewrite (quiet_answers s tr e' n osn _ L ST NW). reflexivity.
  - rewrite (turn_answers s tr e n osn t s1 hd s2 os2 x _ L TN C). cbn [i_cls]. destruct (c_data _ _ _ _ _ C id) as [-> _].
    inversion TN as [e' n' osn' u r t0 fs s1' hd' r1 E1 ST R Q F Z|c E1|t0 r id' fs s1' hd' r1 E1 Q F]; subst.
    + rewrite R, Q. destruct r as [b|m|y]; [apply (first_else _ _ _ _ _ _ F); discriminate| |apply (first_else _ _ _ _ _ _ F); discriminate].
      pose proof (reply_ok s tr e' n osn u m t fs _ L ST (returned_in _ _ _ R) Q W) as RO.
      destruct fs as [|[id'|id'|id'|rest] fs]; try contradiction; cbn [first] in F.
      * exact (proj1 (version_first id id' m (netted s n) s1 hd r1 fs RO F B)).
      * destruct (body_of id') as [g rp a| |] eqn:BO; try (injection F as <- _ _; reflexivity). destruct (own_wire _ _ _ _ BO) as (CW & CI & _).
        replace (says (VObj (CMsg g) []) (version_question id)) with false by (symmetry; unfold says; rewrite CW; cbn; rewrite ?andb_false_r; reflexivity). cbn [values flat_map last].
        destruct (report_first id' a m (netted s n) s1 hd r1 F) as [V _]. apply V.
    + reflexivity.
    + destruct (body_end_data _ _ _ _ _ _ F id) as [-> _]. reflexivity.
Qed.

(** ** whole runs *)
Lemma last_app {A} (l l' : list A) d : last (l ++ l') d = last l' (last l d).
Proof. induction l' as [|x l' IH] using rev_ind; [rewrite app_nil_r; reflexivity|]. rewrite app_assoc, !last_last. reflexivity. Qed.
Lemma wire_pre a b : from_wire (a ++ b) -> from_wire a.
Proof. intros W n m r J. apply (W n m r). apply in_or_app. auto. Qed.
Lemma values_app f a b : values f (a ++ b) = values f a ++ values f b. Proof. apply flat_map_app. Qed.
Lemma version_exec ids cls es s tr id : iexec (istate0 ids cls) es s tr -> from_wire tr -> byte id ->
  k_version (i_cls s id) = last (values "commandClassVersion" (answers (version_question id) tr)) (k_version (cls id)).
Proof.
  intros X. induction X as [|es s tr e s' os X IH ST]; intros W B; [reflexivity|]. pose proof (linked_exec _ _ _ _ _ X) as L.
  rewrite (version_step s tr e s' os id L ST W B), (IH (wire_pre _ _ W) B). unfold answers, new. rewrite answers_app, values_app, last_app. reflexivity.
Qed.

(** ** attributes *)
Lemma version_long z a b : compose (version_q z) <> Ok [a; b].
Proof.
  intros H. destruct ((0 <=? z) && (z <? 256)) eqn:B.
  - rewrite version_wire in H by (unfold byte; lia). discriminate.
  - assert (Q : to_bytes z 1 false = Err EOverflow) by (unfold to_bytes; replace (1 <? 0) with false by reflexivity; replace (2 ^ (8 * 1)) with 256 by reflexivity; cbv zeta; rewrite B; reflexivity).
    revert H. unfold compose, version_q, compose_with, version_question. cbn -[to_bytes Z.ltb]. change (Z.of_nat 1) with 1. unfold BitStream.addBytes. rewrite Q. cbn. discriminate.
Qed.
Lemma copies_body id w f sz : copies id w f sz -> exists g r a i at', body_of id = BCopy g r a /\ w = [s_cls g; s_cmd g] /\ nth_error a i = Some at' /\ a_name at' = f /\ a_ty at' = TInt false sz.
Proof.
  intros [f' J|f' J|f' J|f' J]; cbn in J; repeat (destruct J as [<-|J]; [do 3 eexists; first
    [exists 0%nat; eexists; repeat split; reflexivity|exists 1%nat; eexists; repeat split; reflexivity|exists 2%nat; eexists; repeat split; reflexivity|exists 3%nat; eexists; repeat split; reflexivity|exists 4%nat; eexists; repeat split; reflexivity]|]); destruct J.
Qed.
Lemma body_copies id g r a at' : body_of id = BCopy g r a -> In at' a -> exists w sz, copies id w (a_name at') sz /\ a_ty at' = TInt false sz.
Proof.
  unfold body_of. destruct (Z.eqb_spec id 134) as [->|]; [|destruct (Z.eqb_spec id 94) as [->|]; [|destruct (Z.eqb_spec id 114) as [->|]; [|destruct (_ || _); discriminate]]]; intros E; injection E as <- <- <-; intros J; cbn in J.
  - repeat (destruct J as [<-|J]; [do 2 eexists; split; [apply CP_version; cbn; tauto|reflexivity]|]). destruct J.
  - repeat (destruct J as [<-|J]; [do 2 eexists; first [split; [apply CP_plus; cbn; tauto|reflexivity]|split; [apply CP_icon; cbn; tauto|reflexivity]]|]). destruct J.
  - repeat (destruct J as [<-|J]; [do 2 eexists; split; [apply CP_maker; cbn; tauto|reflexivity]|]). destruct J.
Qed.
Definition own_typed (cls : Z -> kcls) : Prop := forall id g r a, body_of id = BCopy g r a -> typed a (k_attrs (cls id)).
Lemma attr_step s tr e s' os : linked s tr -> istep s e = Some (s', os) -> from_wire (tr ++ istamp (n_now (i_net s)) os) -> own_typed (i_cls s) ->
  own_typed (i_cls s') /\ forall id w f sz, copies id w f sz ->
    aget f (k_attrs (i_cls s' id)) = last (map (fun z => Some (VI false sz z)) (values f (new w s tr os))) (aget f (k_attrs (i_cls s id))).
Proof.
  intros L H W OT. unfold new. destruct (step_cases s tr e s' os L H) as [(e' & n & osn & -> & ST & -> & -> & NW)|(n & osn & t & s1 & hd & s2 & os2 & x & TN & C & -> & ->)].
  - split; [exact OT|]. intros id w f sz CP. rewrite (quiet_answers s tr e' n osn _ L ST NW). reflexivity.
  - cbn [i_cls]. assert (D2 : forall id, k_attrs (i_cls s2 id) = k_attrs (i_cls s1 id)) by (intros id; apply (c_data _ _ _ _ _ C id)).
    assert (SAME : (forall id, k_attrs (i_cls s1 id) = k_attrs (i_cls s id)) -> own_typed (i_cls s2)).
    { intros D1 id g r a BO. rewrite D2, D1. exact (OT id g r a BO). }
    assert (TA := fun w => turn_answers s tr e n osn t s1 hd s2 os2 x w L TN C).
    inversion TN as [e' n' osn' u r t0 fs s1' hd' r1 E1 ST R Q F Z|c E1|t0 r id' fs s1' hd' r1 E1 Q F]; subst.
    + assert (NM : (forall m, r <> RMsg m) -> own_typed (i_cls s2) /\ forall id w f sz, copies id w f sz ->
         aget f (k_attrs (i_cls s2 id)) = last (map (fun z => Some (VI false sz z)) (values f (answers_in w (opens w [] tr) (istamp (n_now (i_net s)) (map ONet osn ++ hd ++ os2 ++ fin t x))))) (aget f (k_attrs (i_cls s id)))).
      { intros N. pose proof (first_else _ _ _ _ _ _ F N) as FE. split; [apply SAME; intros id; apply (FE id)|]. intros id w f sz CP. rewrite TA, R. destruct r as [b|m|y]; [|destruct (N m eq_refl)|]; cbn [values flat_map map last]; rewrite D2; destruct (FE id) as [_ ->]; reflexivity. }
      destruct r as [b|m|y]; [apply NM; discriminate| |apply NM; discriminate]. clear NM.
      pose proof (reply_ok s tr e' n osn u m t fs _ L ST (returned_in _ _ _ R) Q W) as RO.
      destruct fs as [|[id'|id'|id'|rest] fs]; try contradiction; cbn [first] in F.
      * destruct RO as [zs F0]. assert (D1 : forall j, k_attrs (i_cls s1 j) = k_attrs (i_cls s j)).
        { assert (B0 : byte 1) by (unfold byte; lia). exact (proj2 (version_first 1 id' m (netted s n) s1 hd r1 fs (ex_intro _ zs F0) F B0)). }
        split; [apply SAME, D1|]. intros id w f sz CP. rewrite TA, R, Q. destruct (copies_body _ _ _ _ CP) as (g & rp & a & i & at' & BO & -> & _).
        replace (says (version_q id') [s_cls g; s_cmd g]) with false; [cbn; rewrite D2, D1; reflexivity|]. symmetry. apply Bool.not_true_iff_false. rewrite says_eq. apply version_long.
      * destruct (body_of id') as [g' rp' a'| |] eqn:BO'; try (destruct Z; unfold bare; rewrite BO'; exact I). destruct (RO g' rp' a' BO') as [zs F0].
        destruct (report_first id' a' m (netted s n) s1 hd r1 F) as (_ & DN & d & y & CO & DI & _). cbn [netted i_cls] in CO, DN.
        destruct (own_ints _ _ _ _ BO') as [IL _]. destruct (copy_fields a' m zs IL F0 a' 0%nat _ d y (fun i => eq_refl) (OT id' g' rp' a' BO') CO) as (TY & AG & _).
        split.
        -- intros id g r a BO. rewrite D2. destruct (Z.eq_dec id id') as [->|N]; [|rewrite DN by exact N; exact (OT id g r a BO)]. rewrite BO' in BO. injection BO as <- <- <-. rewrite DI. exact TY.
        -- intros id w f sz CP. rewrite TA, R, Q, BO'. destruct (copies_body _ _ _ _ CP) as (g & rp & a & i & at' & BO & -> & NA & NM & NT). destruct (own_wire _ _ _ _ BO') as (CW & CI & _). destruct (own_wire _ _ _ _ BO) as (CW' & CI' & _).
           rewrite D2. destruct (Z.eq_dec id id') as [->|N].
           ++ rewrite BO' in BO. injection BO as <- <- <-. replace (says (VObj (CMsg g') []) [s_cls g'; s_cmd g']) with true by (symmetry; apply says_eq; exact CW).
              rewrite DI, <- NM, (AG i at' sz NA NT). cbn [Nat.leb values flat_map]. rewrite (F0 i at' sz NA NT). destruct (nth_error zs i) as [z|]; reflexivity.
           ++ replace (says (VObj (CMsg g') []) [s_cls g; s_cmd g]) with false; [cbn; rewrite DN by exact N; reflexivity|]. symmetry. apply Bool.not_true_iff_false. rewrite says_eq, CW. intros E. injection E as E _. congruence.
    + split; [apply SAME; reflexivity|]. intros id w f sz CP. rewrite TA. cbn. rewrite D2. reflexivity.
    + assert (D1 := fun id => proj2 (body_end_data _ _ _ _ _ _ F id)). split; [apply SAME, D1|]. intros id w f sz CP. rewrite TA. cbn. rewrite D2, D1. reflexivity.
Qed.
Lemma attr_exec ids cls es s tr : iexec (istate0 ids cls) es s tr -> from_wire tr -> own_typed cls ->
  own_typed (i_cls s) /\ forall id w f sz, copies id w f sz -> aget f (k_attrs (i_cls s id)) = last (map (fun z => Some (VI false sz z)) (values f (answers w tr))) (aget f (k_attrs (cls id))).
Proof.
  intros X. induction X as [|es s tr e s' os X IH ST]; intros W OT; [split; [exact OT|reflexivity]|]. pose proof (linked_exec _ _ _ _ _ X) as L. destruct (IH (wire_pre _ _ W) OT) as [OS AS].
  destruct (attr_step s tr e s' os L ST W OS) as [OS' AS']. split; [exact OS'|]. intros id w f sz CP. rewrite (AS' id w f sz CP), (AS id w f sz CP). unfold answers, new.
  rewrite answers_app, values_app, map_app, last_app. reflexivity.
Qed.
