(** Proofs about interviews: what interview() returns and when a class counts as interviewed. *)
From Coq Require Import String ZArith List Bool Lia.
From Verif Require Import Py Schema Registry Codec SpecBits SpecDecode Waiter Conn ConnLemmas NodeReq SpecNodeReq NodeReqProofs NodeFresh ClassProofs InterviewM SpecInterview InterviewProofs InterviewData InterviewVisit.
Import ListNotations.
Open Scope list_scope.
Open Scope string_scope.
Open Scope list_scope.
Open Scope Z_scope.

Lemma own_asks id g r a : body_of id = BCopy g r a -> own_of id = Asks [s_cls g; s_cmd g].
Proof.
  unfold body_of, own_of. destruct (id =? 134); [intros E; injection E as <- <- <-; reflexivity|]. destruct (id =? 94); [intros E; injection E as <- <- <-; reflexivity|].
  destruct (id =? 114); [intros E; injection E as <- <- <-; reflexivity|]. destruct (_ || _); discriminate.
Qed.
Lemma own_env id : body_of id = BEnv -> own_of id = Itself.
Proof.
  unfold body_of, own_of. destruct (id =? 134); [discriminate|]. destruct (id =? 94); [discriminate|]. destruct (id =? 114); [discriminate|].
  cbn [existsb]. rewrite orb_false_r, orb_assoc. destruct (_ || _ || _); [reflexivity|discriminate].
Qed.
Lemma own_none id : body_of id = BNone -> own_of id = Nothing.
Proof.
  unfold body_of, own_of. destruct (id =? 134); [discriminate|]. destruct (id =? 94); [discriminate|]. destruct (id =? 114); [discriminate|].
  cbn [existsb]. rewrite orb_false_r, orb_assoc. destruct (_ || _ || _); [discriminate|reflexivity].
Qed.
(** the question of a class is asked for no other *)
Lemma own_says id g r a j : body_of id = BCopy g r a -> (match own_of j with Asks w => says (VObj (CMsg g) []) w | _ => false end) = (j =? id).
Proof.
  intros B. destruct (own_wire _ _ _ _ B) as (C & E1 & E2). apply Bool.eq_iff_eq_true. rewrite Z.eqb_eq. split.
  - destruct (own_of j) as [w| |] eqn:O; try discriminate. rewrite says_eq, C. intros H. injection H as <-.
    revert O. unfold own_of. destruct (Z.eqb_spec j 134) as [->|]; [intros O; injection O as O _; congruence|]. destruct (Z.eqb_spec j 94) as [->|]; [intros O; injection O as O _; congruence|].
    destruct (Z.eqb_spec j 114) as [->|]; [intros O; injection O as O _; congruence|]. destruct (existsb _ _); discriminate.
  - intros ->. rewrite (own_asks _ _ _ _ B). apply says_eq, C.
Qed.
Lemma version_says id j : (match own_of j with Asks w => says (version_q id) w | _ => false end) = false.
Proof.
  destruct (own_of j) as [w| |] eqn:O; auto. destruct (says _ _) eqn:S; auto. apply says_eq in S.
  revert O. unfold own_of. destruct (j =? 134); [intros O; injection O as <-; destruct (version_long _ _ _ S)|]. destruct (j =? 94); [intros O; injection O as <-; destruct (version_long _ _ _ S)|].
  destruct (j =? 114); [intros O; injection O as <-; destruct (version_long _ _ _ S)|]. destruct (existsb _ _); discriminate.
Qed.

(** ** the flag of class [j] after the observations of a task that goes on *)
Definition mark (j : Z) (f : bool) (o : iobs) : bool :=
  match o with
  | OOwn _ id => if j =? id then false else f
  | OAsk _ _ q => if match own_of j with Asks w => says q w | _ => false end then false else f
  | OUpdated id => if j =? id then true else f
  | _ => f
  end.
Definition marks (j : Z) (os : list iobs) (f : bool) : bool := fold_left (mark j) os f.
Lemma marks_app j a b f : marks j (a ++ b) f = marks j b (marks j a f). Proof. apply fold_left_app. Qed.
(** a start is the last thing in a turn *)
Definition quiet (t : nat) (o : iobs) : Prop := match o with OVisit t' _ => t' = t | OUpdated id => body_of id = BNone | _ => False end.
Definition ends (t : nat) (os : list iobs) (x : iout) : Prop :=
  match x with
  | XRes _ => Forall (quiet t) os
  | XWait WEnv (FBody id :: _) => body_of id = BEnv /\ exists a, os = a ++ [OOwn t id] /\ Forall (quiet t) a
  | XWait (WReq u) (FVersion id :: _) => exists a c, os = a ++ [OAsk t u (version_q id); ONet c] /\ Forall (quiet t) a
  | XWait (WReq u) (FBody id :: _) => exists g r a c l, body_of id = BCopy g r a /\ os = l ++ [OAsk t u (VObj (CMsg g) []); ONet c] /\ Forall (quiet t) l
  | _ => False
  end.
Definition told (t : nat) (s : istate) (g : igo) : Prop :=
  let '(s', os, x) := g in (forall j, k_interviewed (i_cls s' j) = marks j os (k_interviewed (i_cls s j))) /\ ends t os x.
Lemma ends_note t os os' x : Forall (quiet t) os -> ends t os' x -> ends t (os ++ os') x.
Proof.
  intros Q. destruct x as [[u|] [|[id|id|id|rest] fs]|r]; cbn [ends]; try (intros []; fail).
  - intros (a & c & -> & A). exists (os ++ a), c. rewrite app_assoc. split; [reflexivity|apply Forall_app; auto].
  - intros (g & r & a & c & l & B & -> & A). exists g, r, a, c, (os ++ l). rewrite app_assoc. split; [exact B|]. split; [reflexivity|apply Forall_app; auto].
  - intros (B & a & -> & A). split; [exact B|]. exists (os ++ a). rewrite app_assoc. split; [reflexivity|apply Forall_app; auto].
  - intros A. apply Forall_app; auto.
Qed.
Lemma ends_more t os w fs fs' : ends t os (XWait w fs) -> ends t os (XWait w (fs ++ fs')).
Proof. destruct w, fs as [|[]]; cbn; auto; intros []. Qed.
Lemma told_note t s os s1 g : (forall j, k_interviewed (i_cls s1 j) = marks j os (k_interviewed (i_cls s j))) -> Forall (quiet t) os -> told t s1 g -> told t s (inote os g).
Proof.
  intros M Q. destruct g as [[s2 os2] x]. cbn. intros [A B]. split; [|apply ends_note; assumption]. intros j. rewrite A, M, marks_app. reflexivity.
Qed.
Lemma told_more t s s' os w fs fs' : told t s (s', os, XWait w fs) -> told t s (s', os, XWait w (fs ++ fs')).
Proof. intros [A B]. split; [exact A|apply ends_more, B]. Qed.
Lemma told_ask t id s : told t s (ask_version t id s).
Proof.
  unfold ask_version. destruct (id =? 0); [split; [reflexivity|constructor]|]. rewrite version_new. unfold irequest. cbn [nstep]. destruct (add_session _ _) as [f w]. cbn [iunder app map told]. split.
  - intros j. cbn. change ("requestedCommandClass", _) with ("requestedCommandClass", VI false 1 id). fold (version_q id). rewrite version_says. reflexivity.
  - cbn. exists [], (NCall (List.length (n_tasks (i_net s))) (NReq (s_hid m_Version_VersionCommandClassReport) 3000)). split; [reflexivity|constructor].
Qed.
Lemma told_body t id v s : told t s (start_body t id v s).
Proof.
  unfold start_body. destruct (v =? 0); [split; [reflexivity|constructor]|]. cbv zeta. destruct (body_of id) as [g r a| |] eqn:B.
  - rewrite (own_new _ _ _ _ B). unfold irequest. cbn [nstep]. destruct (add_session _ _) as [f w]. cbn [iunder app map told]. split.
    + intros j. cbn [marks fold_left mark i_cls set_cls]. rewrite (own_says _ _ _ _ j B). destruct (Z.eqb_spec j id) as [->|]; reflexivity.
    + cbn. exists g, r, a. eexists _, []. split; [exact B|]. split; [reflexivity|constructor].
  - cbn [body_end told]. split; [|repeat constructor; exact B]. intros j. cbn. destruct (Z.eqb_spec j id) as [->|]; reflexivity.
  - cbn [told]. split; [|split; [exact B|exists []; split; [reflexivity|constructor]]]. intros j. cbn. destruct (Z.eqb_spec j id) as [->|]; reflexivity.
Qed.
Lemma told_class t id s : told t s (start_class t id s).
Proof.
  unfold start_class. apply (told_note t s [OVisit t id] s); [reflexivity|repeat constructor|]. cbv zeta. destruct (k_version (i_cls s id) =? 0); [|apply told_body].
  pose proof (told_ask t id s) as A. destruct (ask_version t id s) as [[s1 os1] x] eqn:E. apply ask_out in E as [_ E]. destruct x as [w fs|r].
  - apply told_more, A.
  - subst r. destruct A as [A1 A2]. exact (told_note t s os1 s1 _ A1 A2 (told_body t id 0 s1)).
Qed.
Lemma told_visit t rest : forall s, told t s (visit t rest s).
Proof.
  induction rest as [|id rest IH]; intros s; [split; [reflexivity|constructor]|]. cbn [visit]. pose proof (told_class t id s) as A.
  destruct (start_class t id s) as [[s1 os1] x].
  assert (G : forall r, told t s (s1, os1, XRes r) -> told t s (inote os1 (visit t rest s1))) by (intros r [H1 H2]; exact (told_note t s os1 s1 _ H1 H2 (IH s1))).
  destruct x as [w fs|[v|e]]; [apply told_more, A|exact (G _ A)|]. destruct e; try exact A. exact (G _ A).
Qed.
Lemma told_after t f r s : told t s (after_frame t f r s).
Proof. assert (R : forall r, told t s (s, [], XRes r)) by (split; [reflexivity|constructor]). destruct f, r as [[]|[]]; cbn [after_frame]; first [apply R|apply told_body|apply told_visit]. Qed.
Lemma told_unwind t fs : forall r s, told t s (unwind t fs r s).
Proof.
  induction fs as [|f fs IH]; intros r s; [split; [reflexivity|constructor]|]. cbn [unwind]. pose proof (told_after t f r s) as A.
  destruct (after_frame t f r s) as [[s1 os1] [w g|r']]; [apply told_more, A|]. destruct A as [A1 A2]. exact (told_note t s os1 s1 _ A1 A2 (IH r' s1)).
Qed.
Lemma turn_told s e n osn t s1 hd g : turn s e n osn t s1 hd g -> told t s1 g.
Proof. intros T. destruct T as [e' n osn u r t fs s1 hd r1 E1 ST R Q F Z|c E1|t r id fs s1 hd r1 E1 Q F]; [apply told_unwind| |apply told_unwind]. destruct c; [apply told_visit|apply told_class|apply told_ask]. Qed.

(** ** the interview a task has started last *)
Definition owns (t : nat) (os : list iobs) : list (option Z) := flat_map (fun o => match o with OOwn t' id => if Nat.eqb t' t then [Some id] else [] | _ => [] end) os.
Lemma owns_app t a b : owns t (a ++ b) = owns t a ++ owns t b. Proof. apply flat_map_app. Qed.
Lemma own_last_app t tr T os : own_last t (tr ++ istamp T os) = last (owns t os) (own_last t tr).
Proof.
  unfold own_last. rewrite flat_map_app, last_app. f_equal. induction os as [|o os IH]; [reflexivity|]. cbn. destruct o; try exact IH. destruct (Nat.eqb t0 t); cbn; [f_equal|]; exact IH.
Qed.
Lemma owns_nets t os : owns t (map ONet os) = []. Proof. induction os; auto. Qed.
Lemma owns_quiet t t' os : Forall (quiet t) os -> owns t' os = [].
Proof. induction 1 as [|o os Q _ IH]; [reflexivity|]. cbn. destruct o; try exact IH; destruct Q. Qed.
Lemma owns_ends t t' os x : ends t os x -> owns t' os = match x with XWait WEnv (FBody id :: _) => if Nat.eqb t t' then [Some id] else [] | _ => [] end.
Proof.
  destruct x as [[u|] [|[id|id|id|rest] fs]|r]; cbn [ends]; try (intros []; fail).
  - intros (a & c & -> & A). rewrite owns_app, (owns_quiet _ _ _ A). reflexivity.
  - intros (g & r & a & c & l & B & -> & A). rewrite owns_app, (owns_quiet _ _ _ A). reflexivity.
  - intros (B & a & -> & A). rewrite owns_app, (owns_quiet _ _ _ A). cbn. rewrite app_nil_r. reflexivity.
  - apply owns_quiet.
Qed.
Lemma hd_shape s e n osn t s1 hd g : turn s e n osn t s1 hd g -> hd = [] \/ (exists id, hd = [OUpdated id]) \/ exists c, e = ICall c /\ hd = [OCall t c].
Proof.
  intros T. destruct T as [e' n osn u r t fs s1 hd r1 E1 ST R Q F Z|c E1|t r id fs s1 hd r1 E1 Q F]; [|eauto|].
  - destruct (first_res fs r (netted s n)) as (s0 & hd0 & r0 & F0 & _ & _ & _ & F4). rewrite F in F0. injection F0 as <- <- <-. destruct F4 as [->|[id ->]]; eauto.
  - unfold body_end in F. destruct r as [rv|y]; [injection F as _ <- _; eauto|]. destruct y; injection F as _ <- _; eauto.
Qed.
Lemma owns_turn s e n osn t s1 hd s2 os2 x t' : turn s e n osn t s1 hd (s2, os2, x) ->
  owns t' (map ONet osn ++ hd ++ os2 ++ fin t x) = match x with XWait WEnv (FBody id :: _) => if Nat.eqb t t' then [Some id] else [] | _ => [] end.
Proof.
  intros T. destruct (turn_told _ _ _ _ _ _ _ _ T) as [_ E]. rewrite !owns_app, owns_nets, (owns_ends _ _ _ _ E). replace (owns t' (fin t x)) with (@nil (option Z)) by (destruct x; reflexivity).
  destruct (hd_shape _ _ _ _ _ _ _ _ T) as [->|[[id ->]|(c & _ & ->)]]; rewrite app_nil_r; reflexivity.
Qed.
Definition owning (s : istate) (tr : itrace) : Prop := forall t id fs, nth_error (i_tasks s) t = Some (ISusp WEnv (FBody id :: fs)) -> own_last t tr = Some id.
Lemma owning_step s tr e s' os : linked s tr -> owning s tr -> istep s e = Some (s', os) -> owning s' (tr ++ istamp (n_now (i_net s)) os).
Proof.
  intros L O H t' id fs Q. rewrite own_last_app. destruct (step_cases s tr e s' os L H) as [(e' & n & osn & -> & ST & -> & -> & NW)|(n & osn & t & s1 & hd & s2 & os2 & x & TN & C & -> & ->)].
  - rewrite owns_nets. exact (O _ _ _ Q).
  - rewrite (owns_turn _ _ _ _ _ _ _ _ _ _ t' TN). cbn [i_tasks] in Q. destruct (put_at _ _ _ _ _ Q (turn_len _ _ _ _ _ _ _ _ TN)) as [[-> E]|[N Q']].
    + destruct x as [w g|r]; [|discriminate]. cbn in E. injection E as <- <-. rewrite Nat.eqb_refl. reflexivity.
    + destruct (Nat.eqb_spec t t'); [congruence|]. assert (A : forall y : option Z, last (match x with XWait WEnv (FBody _ :: _) => [] | _ => [] end) y = y) by (intros y; destruct x as [[|] [|[]]|]; reflexivity).
      rewrite A. exact (O _ _ _ Q').
Qed.
Lemma owning_exec ids cls es s tr : iexec (istate0 ids cls) es s tr -> owning s tr.
Proof. induction 1 as [|es s tr e s' os X IH ST]; [intros [|t] id fs Q; discriminate|]. eapply owning_step; [eapply linked_exec; exact X|exact IH|exact ST]. Qed.

(** ** the outcome of a question *)
Lemma made id g rp a fs u q h m s tr e n osn t hd s1 hd1 r1 : linked s tr -> nstep (i_net s) e = Some (n, osn) -> In (NRet u (RMsg m)) osn -> nth_error (i_tasks s) t = Some (ISusp (WReq u) (FBody id :: fs)) ->
  from_wire (tr ++ istamp (n_now (i_net s)) (map ONet osn ++ hd)) -> own_typed (i_cls s) -> body_of id = BCopy g rp a -> top (FBody id :: fs) q h ->
  got_report id a (RMsg m) (netted s n) = (s1, hd1, XRes r1) ->
  (~ incomplete m /\ r1 = Ok (VRet None) /\ forall j, k_interviewed (i_cls s1 j) = if j =? id then true else k_interviewed (i_cls s j)) \/
  (incomplete m /\ r1 = Err EType /\ forall j, k_interviewed (i_cls s1 j) = k_interviewed (i_cls s j)).
Proof.
  intros L ST J Q W OT B TP F. destruct (report_first _ _ _ _ _ _ _ F) as (_ & _ & d & x & CO & _ & K).
  pose proof (reply_ok s tr e n osn u m t (FBody id :: fs) _ L ST J Q W) as RO. destruct (RO g rp a B) as [zs FM]. destruct (own_ints _ _ _ _ B) as [IL NN].
  destruct (reply _ _ _ _ _ _ _ _ _ L ST J Q) as (q' & h' & TP' & HH & _). cbn [top] in TP'. destruct TP' as (g' & r' & a' & B' & _ & HE). rewrite B in B'. injection B' as <- <- <-.
  destruct (copy_fields a m zs IL FM a 0%nat _ d x (fun i => eq_refl) (OT id g rp a B) CO) as (_ & _ & _ & XX & LE).
  destruct K as [(-> & _ & -> & KF)|(y & -> & _ & KF & KR)].
  - left. split; [|split; [reflexivity|exact KF]]. unfold incomplete. rewrite HH, HE, <- (own_due _ _ _ _ B). intros (f & FI & FN). apply in_map_iff in FI as (b & <- & FI).
    destruct (In_nth_error _ _ FI) as [i NA]. destruct (proj2 IL _ FI) as [sz T]. destruct (LE eq_refl) as [LE'|]; [|congruence]. rewrite (FM _ _ _ NA T) in FN. destruct (nth_error zs i) eqn:E; [discriminate|].
    apply nth_error_None in E. apply nth_lt in NA. lia.
  - right. destruct XX as [XX|[XX LT]]; [discriminate|]. injection XX as ->. split; [|split; [apply KR; discriminate|exact KF]].
    unfold incomplete. rewrite HH, HE, <- (own_due _ _ _ _ B). exact (short_fields a m zs IL FM LT).
Qed.

(** ** the own interview that is over at the start of a turn *)
Definition outcome (r : res (option bool)) : res ival := match r with Err ETimeout => Ok (VRet (Some false)) | Err e => Err e | Ok b => Ok (VRet b) end.
Definition good (r : res (option bool)) : bool := match r with Ok (Some false) | Err _ => false | Ok _ => true end.
Lemma quiet_ret t os u r : Forall (quiet t) os -> ~ In (ONet (NRet u r)) os.
Proof. intros F J. rewrite Forall_forall in F. exact (F _ J). Qed.
Lemma ret_osn osn hd os2 x s e n t s1 s2 u r : calm t s1 s2 os2 x -> turn s e n osn t s1 hd (s2, os2, x) -> In (ONet (NRet u r)) (map ONet osn ++ hd ++ os2 ++ fin t x) -> In (NRet u r) osn.
Proof.
  intros C T J. apply in_app_or in J as [J|J]; [apply in_map_iff in J as (o & EO & J); injection EO as ->; exact J|]. exfalso.
  apply in_app_or in J as [J|J]; [destruct (hd_shape _ _ _ _ _ _ _ _ T) as [->|[[id ->]|(c & _ & ->)]]; cbn in J; intuition discriminate|].
  apply in_app_or in J as [J|J]; [|destruct x; cbn in J; intuition discriminate].
  assert (BN : forall l, Forall (benign t) l -> ~ In (ONet (NRet u r)) l) by (intros l F K; rewrite Forall_forall in F; exact (F _ K)).
  destruct (c_net _ _ _ _ _ C) as [(_ & B & _)|(os0 & q & h & fs & -> & B & _)]; [exact (BN _ B J)|].
  apply in_app_or in J as [J|J]; [exact (BN _ B J)|]. cbn in J. intuition discriminate.
Qed.
Lemma asks_inv j w q fs h : own_of j = Asks w -> says q w = true -> top fs q h -> exists fs', fs = FBody j :: fs'.
Proof.
  intros O S T. destruct fs as [|[id|id|id|rest] fs]; cbn [top] in T; try contradiction.
  - destruct T as [-> _]. pose proof (version_says id j) as V. rewrite O in V. congruence.
  - destruct T as (g & r & a & B & -> & _). pose proof (own_says _ _ _ _ j B) as V. rewrite O, S in V. symmetry in V. apply Z.eqb_eq in V. subst. eauto.
Qed.
Lemma makes_one x r r' : makes x r -> makes x r' -> r = r'.
Proof. destruct x as [b|m|e], r as [[b1|]|e1], r' as [[b2|]|e2]; cbn; try tauto; try congruence; intros [-> ?] [-> ?]; reflexivity. Qed.
Lemma head_over s tr e n osn t s1 hd s2 os2 x : linked s tr -> owning s tr -> turn s e n osn t s1 hd (s2, os2, x) -> calm t s1 s2 os2 x ->
  from_wire (tr ++ istamp (n_now (i_net s)) (map ONet osn ++ hd ++ os2 ++ fin t x)) -> own_typed (i_cls s) ->
  let os := map ONet osn ++ hd ++ os2 ++ fin t x in
  (exists id r w fs, nth_error (i_tasks s) t = Some (ISusp w (FBody id :: fs)) /\ over t id r e tr os /\ unwind t fs (outcome r) s1 = (s2, os2, x) /\
     (forall j, k_interviewed (i_cls s1 j) = if (j =? id) && good r then true else k_interviewed (i_cls s j)) /\
     forall t' j r', over t' j r' e tr os -> t' = t /\ j = id /\ r' = r) \/
  ((forall j, k_interviewed (i_cls s1 j) = k_interviewed (i_cls s j)) /\ (forall t' j r', ~ over t' j r' e tr os) /\
   ((exists c, e = ICall c /\ t = List.length (i_tasks s) /\ s1 = listed s) \/
    exists id u fs r, nth_error (i_tasks s) t = Some (ISusp (WReq u) (FVersion id :: fs)) /\ In (NRet u r) osn /\ first (FVersion id :: fs) r (netted s n) = (s1, hd, XRes match r with RMsg m => match to_int (getattr m "commandClassVersion") with Ok v => Ok (VVer v) | Err y => Err y end | RExc ETimeout => Ok (VVer 0) | RExc y => Err y | RBool _ => Err EUnmodelled end))).
Proof.
  intros L OW TN C W OT os.
  assert (INV : forall t' j r', over t' j r' e tr os ->
     (exists u x0 w q h fs, own_of j = Asks w /\ In (NRet u x0) osn /\ makes x0 r' /\ nth_error (i_tasks s) t' = Some (ISusp (WReq u) (FBody j :: fs)) /\ top (FBody j :: fs) q h) \/ (own_of j = Itself /\ e = IOwn t' r' /\ own_last t' tr = Some j)).
  { intros t' j r' O. unfold over in O. destruct (own_of j) as [w| |] eqn:OO; [|right; tauto|destruct O]. left. destruct O as (n0 & u & q & x0 & A & S & J & M). pose proof (ret_osn _ _ _ _ _ _ _ _ _ _ _ _ C TN J) as J'.
    destruct (turn_net _ _ _ _ _ _ _ _ TN) as (_ & _ & _ & NS). destruct NS as [[_ ->]|(e' & u' & r0 & fs & -> & ST & _)]; [destruct J'|].
    destruct (l_ask _ _ L _ _ _ _ A) as [_ [(fs' & h & Q & TP)|(n1 & r1 & R1)]]; [|destruct (returns_open _ _ _ _ _ _ _ L ST J' _ _ R1)].
    destruct (asks_inv _ _ _ _ _ OO S TP) as [fs'' ->]. exists u, x0, w, q, h, fs''. auto 10. }
  inversion TN as [e' n' osn' u r t0 fs s1' hd' r1 E1 ST R Q F Z|c E1|t0 r id' fs s1' hd' r1 E1 Q F]; subst.
  - pose proof (returned_in _ _ _ R) as RI. destruct fs as [|[id|id|id|rest] fs]; try contradiction; cbn [tl] in *.
    + right. split; [|split].
      * cbn [first] in F. unfold got_version in F. destruct r as [b|m|y]; [injection F as <- _ _; reflexivity| |destruct y; injection F as <- _ _; reflexivity].
        destruct (to_int (getattr m "commandClassVersion")); injection F as <- _ _; [|reflexivity]. intros j. cbn. destruct (Z.eqb_spec j id) as [->|]; reflexivity.
      * intros t' j r' O. destruct (INV _ _ _ O) as [(u' & x0 & w & q & h & fs' & OO & RI' & M & Q' & TP)|(_ & E & _)]; [|discriminate].
        destruct (turn_net _ _ _ _ _ _ _ _ TN) as (_ & _ & _ & NS). destruct NS as [[_ ->]|(e'' & u'' & r0 & fs'' & _ & _ & _ & _ & UN)]; [destruct RI|]. destruct (UN _ _ RI) as [-> ->]. destruct (UN _ _ RI') as [-> _].
        rewrite (l_uniq _ _ L _ _ _ _ _ Q' Q) in Q'. congruence.
      * right. exists id, u, fs, r. split; [exact Q|]. split; [exact RI|]. rewrite F. f_equal. f_equal. cbn [first] in F. unfold got_version in F. destruct r as [b|m|y]; [injection F as _ _ <-; reflexivity| |destruct y; injection F as _ _ <-; reflexivity].
        destruct (to_int (getattr m "commandClassVersion")); injection F as _ _ <-; reflexivity.
    + left. cbn [first] in F. destruct (body_of id) as [g rp a| |] eqn:B; try (destruct Z; unfold bare; rewrite B; exact I). destruct (l_susp _ _ L _ _ _ Q) as (p & q & h & n0 & _ & _ & AS & TP).
      assert (K : exists ro, makes r ro /\ r1 = outcome ro /\ forall j, k_interviewed (i_cls s1 j) = if (j =? id) && good ro then true else k_interviewed (i_cls s j)).
      { destruct r as [b|m|y]; [destruct (no_bool _ _ _ _ _ _ ST RI)| |].
        - destruct (made _ _ _ _ _ _ _ _ _ _ _ _ _ _ _ _ _ _ _ L ST RI Q W OT B TP F) as [(IM & -> & K)|(IM & -> & K)].
          + exists (Ok None). split; [exact IM|]. split; [reflexivity|]. intros j. rewrite K. cbn. rewrite andb_true_r. reflexivity.
          + exists (Err EType). split; [cbn; auto|]. split; [reflexivity|]. intros j. rewrite K, andb_false_r. reflexivity.
        - exists (Err y). split; [reflexivity|]. cbn in F. split; [destruct y; injection F as _ _ <-; reflexivity|]. intros j. rewrite andb_false_r. destruct y; injection F as <- _ _; reflexivity. }
      destruct K as (ro & M & -> & K). exists id, ro, (WReq u), fs. split; [exact Q|]. split; [|split; [first [assumption|reflexivity]|split; [exact K|]]].
      * unfold over. rewrite (own_asks _ _ _ _ B). cbn [top] in TP. destruct TP as (g' & r' & a' & B' & -> & _). rewrite B in B'. injection B' as <- <- <-. exists n0, u, (VObj (CMsg g) []), r. split; [exact AS|]. split; [apply says_eq, (own_wire _ _ _ _ B)|].
        split; [apply in_or_app; left; apply in_map, RI|exact M].
      * intros t' j r' O. destruct (INV _ _ _ O) as [(u' & x0 & w & q' & h' & fs' & OO & RI' & M' & Q' & TP')|(_ & E & _)]; [|discriminate].
        destruct (turn_net _ _ _ _ _ _ _ _ TN) as (_ & _ & _ & NS). destruct NS as [[_ ->]|(e'' & u'' & r0 & fs'' & _ & _ & _ & _ & UN)]; [destruct RI|]. destruct (UN _ _ RI) as [-> ->]. destruct (UN _ _ RI') as [-> ->].
        pose proof (l_uniq _ _ L _ _ _ _ _ Q' Q) as ->. rewrite Q in Q'. injection Q' as -> ->. split; [reflexivity|]. split; [reflexivity|]. exact (makes_one _ _ _ M' M).
  - right. split; [reflexivity|]. split; [|left; eauto]. intros t' j r' O. destruct (INV _ _ _ O) as [(u' & x0 & w & q & h & fs' & OO & RI' & _)|(_ & E & _)]; [destruct RI'|discriminate].
  - left. pose proof (l_env _ _ L _ _ Q) as EV. cbn in EV. exists id', r, WEnv, fs. split; [exact Q|]. split; [unfold over; rewrite (own_env _ EV); split; [reflexivity|exact (OW _ _ _ Q)]|].
    assert (r1 = outcome r /\ forall j, k_interviewed (i_cls s1 j) = if (j =? id') && good r then true else k_interviewed (i_cls s j)) as [-> K].
    { unfold body_end in F. destruct r as [rv|y].
      - injection F as <- _ <-. split; [reflexivity|]. intros j. destruct rv as [[]|]; cbn; rewrite ?andb_true_r, ?andb_false_r; auto; destruct (Z.eqb_spec j id') as [->|]; reflexivity.
      - split; [destruct y; injection F as _ _ <-; reflexivity|]. intros j. rewrite andb_false_r. destruct y; injection F as <- _ _; reflexivity. }
    split; [first [assumption|reflexivity]|]. split; [exact K|]. intros t' j r' O. destruct (INV _ _ _ O) as [(u' & x0 & w & q & h & fs' & OO & RI' & _)|(_ & E & OL)]; [destruct RI'|]. injection E as -> ->. rewrite (OW _ _ _ Q) in OL. injection OL as ->. auto.
Qed.

(** ** how the flag changes *)
Lemma quiet_marks t j os f : Forall (quiet t) os -> (marks j os f = f \/ (marks j os f = true /\ own_of j = Nothing /\ In (OUpdated j) os)) /\ forall t' o, In o os -> ~ starts t' j o.
Proof.
  intros Q. split.
  - revert f. induction Q as [|o os Q F IH]; intros f; [left; reflexivity|]. cbn [marks fold_left]. fold (marks j os). destruct o; cbn in Q; try contradiction; cbn [mark].
    + destruct (IH f) as [A|(A & B & C)]; [left; exact A|right; cbn; auto].
    + destruct (Z.eqb_spec j id) as [->|].
      * right. destruct (IH true) as [A|(A & B & C)]; [split; [exact A|]; split; [apply own_none, Q|left; reflexivity]|cbn; auto].
      * destruct (IH f) as [A|(A & B & C)]; [left; exact A|right; cbn; auto].
  - intros t' o J S. rewrite Forall_forall in Q. specialize (Q _ J). destruct o; cbn in Q; try contradiction; destruct (own_of j) eqn:E; unfold starts in S; rewrite E in S; exact S.
Qed.
Lemma ends_marks t os x j f : ends t os x ->
  (marks j os f = false -> f = false \/ exists o, In o os /\ starts t j o) /\
  (marks j os f = true -> f = true \/ (own_of j = Nothing /\ In (OUpdated j) os)) /\
  (forall t' o, In o os -> starts t' j o -> t' = t /\ marks j os f = false).
Proof.
  assert (QQ : forall l, Forall (quiet t) l -> (marks j l f = false -> f = false) /\ (marks j l f = true -> f = true \/ (own_of j = Nothing /\ In (OUpdated j) l)) /\ forall t' o, In o l -> ~ starts t' j o).
  { intros l Q. destruct (quiet_marks t j l f Q) as [[A|(A & B & C)] D]; rewrite A; (split; [first [discriminate|auto]|]); split; auto. }
  destruct x as [[u|] [|[id|id|id|rest] fs]|r]; cbn [ends]; try (intros []; fail).
  - intros (a & c & -> & A). destruct (QQ a A) as (Q1 & Q2 & Q3). assert (M : marks j (a ++ [OAsk t u (version_q id); ONet c]) f = marks j a f) by (rewrite marks_app; cbn [marks fold_left mark]; rewrite version_says; reflexivity). rewrite M.
    split; [auto|]. split; [intros K; destruct (Q2 K) as [|[? ?]]; [auto|right; split; [assumption|apply in_or_app; auto]]|]. intros t' o J S. apply in_app_or in J as [J|[<-|[<-|[]]]]; [destruct (Q3 _ _ J S)| |].
    + exfalso. pose proof (version_says id j) as V. unfold starts in S. destruct (own_of j); try contradiction. destruct S as [_ S]. congruence.
    + destruct S.
  - intros (g & r & a & c & l & B & -> & A). destruct (QQ l A) as (Q1 & Q2 & Q3). pose proof (own_says _ _ _ _ j B) as V.
    assert (M : marks j (l ++ [OAsk t u (VObj (CMsg g) []); ONet c]) f = if j =? id then false else marks j l f) by (rewrite marks_app; cbn [marks fold_left mark]; rewrite V; reflexivity). rewrite M. split; [|split].
    + destruct (Z.eqb_spec j id) as [->|]; [|auto]. intros _. right. exists (OAsk t u (VObj (CMsg g) [])). split; [apply in_or_app; right; left; reflexivity|]. unfold starts. destruct (own_of id); try discriminate. auto.
    + destruct (j =? id); [discriminate|]. intros K. destruct (Q2 K) as [|[? ?]]; [auto|right; split; [assumption|apply in_or_app; auto]].
    + intros t' o J S. apply in_app_or in J as [J|[<-|[<-|[]]]]; [destruct (Q3 _ _ J S)| |destruct S]. unfold starts in S. destruct (own_of j); try contradiction. destruct S as [-> S]. rewrite S in V. rewrite <- V. auto.
  - intros (B & a & -> & A). destruct (QQ a A) as (Q1 & Q2 & Q3). assert (M : marks j (a ++ [OOwn t id]) f = if j =? id then false else marks j a f) by (rewrite marks_app; reflexivity). rewrite M. split; [|split].
    + destruct (Z.eqb_spec j id) as [->|]; [|auto]. intros _. right. exists (OOwn t id). split; [apply in_or_app; right; left; reflexivity|]. unfold starts. rewrite (own_env _ B). auto.
    + destruct (j =? id); [discriminate|]. intros K. destruct (Q2 K) as [|[? ?]]; [auto|right; split; [assumption|apply in_or_app; auto]].
    + intros t' o J S. apply in_app_or in J as [J|[<-|[]]]; [destruct (Q3 _ _ J S)|]. unfold starts in S. destruct (own_of j); try contradiction. destruct S as [-> ->]. rewrite Z.eqb_refl. auto.
  - intros A. destruct (QQ os A) as (Q1 & Q2 & Q3). split; [auto|]. split; [auto|]. intros t' o J S. destruct (Q3 _ _ J S).
Qed.
Lemma starts_tail s e n osn t s1 hd g os2 x t' j o : turn s e n osn t s1 hd g -> In o (map ONet osn ++ hd ++ os2 ++ fin t x) -> starts t' j o -> In o os2.
Proof.
  intros T J S. apply in_app_or in J as [J|J]; [apply in_map_iff in J as (o' & <- & _); destruct S|].
  apply in_app_or in J as [J|J]; [destruct (hd_shape _ _ _ _ _ _ _ _ T) as [->|[[id ->]|(c & _ & ->)]]; [destruct J|destruct J as [<-|[]]; destruct S|destruct J as [<-|[]]; destruct S]|].
  apply in_app_or in J as [J|J]; [exact J|]. destruct x; [destruct J|]. destruct J as [<-|[]]. destruct S.
Qed.
Definition flag_story (s : istate) (tr : itrace) (e : ievent) (s' : istate) (os : list iobs) : Prop := forall id,
  (k_interviewed (i_cls s id) = true -> k_interviewed (i_cls s' id) = false -> exists t o, In o os /\ starts t id o) /\
  (k_interviewed (i_cls s id) = false -> k_interviewed (i_cls s' id) = true -> match own_of id with Nothing => In (OUpdated id) os | _ => exists t r, r <> Some false /\ over t id (Ok r) e tr os end) /\
  (forall t o, In o os -> starts t id o -> k_interviewed (i_cls s' id) = false) /\
  (forall t r, over t id (Ok r) e tr os -> r <> Some false -> k_interviewed (i_cls s' id) = true \/ exists o, In o os /\ starts t id o).
Lemma story_step s tr e s' os : linked s tr -> owning s tr -> istep s e = Some (s', os) -> from_wire (tr ++ istamp (n_now (i_net s)) os) -> own_typed (i_cls s) -> flag_story s tr e s' os.
Proof.
  intros L OW H W OT id. destruct (step_cases s tr e s' os L H) as [(e' & n & osn & -> & ST & -> & -> & NW)|(n & osn & t & s1 & hd & s2 & os2 & x & TN & C & -> & ->)].
  - cbn [netted i_cls]. split; [congruence|]. split; [congruence|]. split; [intros t o J S; apply in_map_iff in J as (o' & <- & _); destruct S|].
    intros t r O _. exfalso. unfold over in O. destruct (own_of id) as [w| |]; [|destruct O; discriminate|exact O]. destruct O as (n0 & u & q & x0 & A & S & J & M). apply in_map_iff in J as (o & EO & J). injection EO as ->.
    destruct (l_ask _ _ L _ _ _ _ A) as [_ [(fs' & h & Q & TP)|(n1 & r1 & R1)]]; [exact (NW _ _ _ _ J Q)|destruct (returns_open _ _ _ _ _ _ _ L ST J _ _ R1)].
  - destruct (turn_told _ _ _ _ _ _ _ _ TN) as [M E]. cbn [i_cls]. destruct (ends_marks t os2 x id (k_interviewed (i_cls s1 id)) E) as (E1 & E2 & E3). rewrite <- M in E1, E2, E3.
    assert (IT : forall o, In o os2 -> In o (map ONet osn ++ hd ++ os2 ++ fin t x)) by (intros o J; apply in_or_app; right; apply in_or_app; right; apply in_or_app; auto).
    assert (S3 : forall t' o, In o (map ONet osn ++ hd ++ os2 ++ fin t x) -> starts t' id o -> k_interviewed (i_cls s2 id) = false) by (intros t' o J S; exact (proj2 (E3 t' o (starts_tail _ _ _ _ _ _ _ _ _ _ _ _ _ TN J S) S))).
    destruct (head_over s tr e n osn t s1 hd s2 os2 x L OW TN C W OT) as [(id' & r & w & fs & Q & O & U & K & UN)|(K & NO & _)].
    + split; [|split; [|split; [exact S3|]]].
      * intros A B. destruct (E1 B) as [D|(o & J & S)]; [|eauto]. rewrite K, A in D. destruct (_ && _); discriminate.
      * intros A B. destruct (E2 B) as [D|[D1 D2]]; [|rewrite D1; auto]. rewrite K, A in D. destruct (Z.eqb_spec id id') as [->|]; [|discriminate]. cbn in D. destruct (good r) eqn:G; [|discriminate].
        destruct r as [b|y]; [|discriminate]. assert (over t id' (Ok b) e tr (map ONet osn ++ hd ++ os2 ++ fin t x)) as O' by exact O. unfold over in O. destruct (own_of id') eqn:OO; [..|destruct O].
        -- exists t, b. split; [intros ->; discriminate|exact O'].
        -- exists t, b. split; [intros ->; discriminate|exact O'].
      * intros t' b O' N. destruct (UN _ _ _ O') as (-> & -> & <-). destruct (k_interviewed (i_cls s2 id')) eqn:Z; [auto|]. right. destruct (E1 eq_refl) as [D|(o & J & S)]; [|eauto].
        rewrite K, Z.eqb_refl in D. destruct b as [[]|]; try discriminate. congruence.
    + rewrite K in E1, E2. split; [|split; [|split; [exact S3|]]].
      * intros A B. destruct (E1 B) as [D|(o & J & S)]; [congruence|eauto].
      * intros A B. destruct (E2 B) as [D|[D1 D2]]; [congruence|rewrite D1; auto].
      * intros t' b O'. destruct (NO _ _ _ O').
Qed.
Lemma story_exec ids cls es s tr e s' os : iexec (istate0 ids cls) es s tr -> istep s e = Some (s', os) -> from_wire (tr ++ istamp (n_now (i_net s)) os) -> sound cls -> flag_story s tr e s' os.
Proof.
  intros X ST W SO. eapply story_step; [eapply linked_exec; exact X|eapply owning_exec; exact X|exact ST|exact W|]. eapply attr_exec; [exact X|exact (wire_pre _ _ W)|apply sound_typed, SO].
Qed.

(** ** what interview() of a class returns *)
Definition unstarted (t : nat) (id : Z) (tr : itrace) : Prop := forall n o, In (n, o) tr -> ~ starts t id o.
Definition result_ok (t : nat) (id : Z) (r : res ival) (es : list ievent) (tr : itrace) : Prop :=
  match r with
  | Ok (VRet b) => (b = None /\ no_version t id tr /\ unstarted t id tr) \/ ended t id (Ok b) es tr \/ (b = Some false /\ ended t id (Err ETimeout) es tr)
  | Ok _ => False
  | Err e => e <> ETimeout /\ (ended t id (Err e) es tr \/ version_said t id (RExc e) tr \/ (e = EType /\ exists m, version_said t id (RMsg m) tr /\ incomplete m))
  end.
Definition class_course (es : list ievent) (tr : itrace) (t : nat) (id : Z) (p : ipc) : Prop :=
  match p with
  | ISusp _ fs => (fs = [FVersion id; FWrap id] /\ unstarted t id tr) \/ fs = [FBody id]
  | IEnd r => result_ok t id r es tr
  end.
Lemma ended_more t id r es tr es' x : ended t id r es tr -> ended t id r (es ++ es') (tr ++ x).
Proof.
  unfold ended. destruct (own_of id); auto.
  - intros (n & n' & u & q & y & A & B & C & D). exists n, n', u, q, y. split; [apply in_or_app; auto|]. split; [exact B|]. split; [apply in_or_app; auto|exact D].
  - intros J. apply in_or_app. auto.
Qed.
Lemma said_more t id y tr x : version_said t id y tr -> version_said t id y (tr ++ x).
Proof. intros (n & n' & u & q & A & B & C). exists n, n', u, q. split; [apply in_or_app; auto|]. split; [exact B|]. apply in_or_app. auto. Qed.
Lemma no_version_more t id tr x : no_version t id tr -> no_version t id (tr ++ x).
Proof. intros [->|[A|(m & A & B)]]; [left; reflexivity|right; left; apply said_more, A|right; right; exists m; split; [apply said_more, A|exact B]]. Qed.
Lemma class_more t id es tr p es' x : class_course es tr t id p -> (forall n o, In (n, o) x -> ~ starts t id o) -> class_course (es ++ es') (tr ++ x) t id p.
Proof.
  intros C N. assert (U : unstarted t id tr -> unstarted t id (tr ++ x)) by (intros U n o J; apply in_app_or in J as [J|J]; [exact (U _ _ J)|exact (N _ _ J)]). destruct p as [w fs|[[v|b|]|e]]; cbn in *; auto.
  - destruct C as [[-> C]| ->]; auto.
  - destruct C as [(A & B & C)|[C|[A C]]]; [left; split; [exact A|]; split; [apply no_version_more, B|apply U, C]|right; left; apply ended_more, C|right; right; split; [exact A|apply ended_more, C]].
  - destruct C as [A [C|[C|(B & m & C & D)]]]; (split; [exact A|]); [left; apply ended_more, C|right; left; apply said_more, C|right; right; split; [exact B|]; exists m; split; [apply said_more, C|exact D]].
Qed.
Lemma over_ended t id r e es tr T os : over t id r e tr os -> ended t id r (es ++ [e]) (tr ++ istamp T os).
Proof.
  unfold over, ended. destruct (own_of id).
  - intros (n & u & q & x & A & B & C & D). exists n, T, u, q, x. split; [apply in_or_app; auto|]. split; [exact B|]. split; [apply in_or_app; right; apply in_istamp; auto|exact D].
  - intros [-> _]. apply in_or_app. right. left. reflexivity.
  - intros [].
Qed.
(** the flag when a call returns [r] *)
Definition flag_fact (s s' : istate) (t : nat) (id : Z) (r : res ival) (tr : itrace) : Prop :=
  match r with
  | Ok (VRet (Some false)) | Err _ => k_interviewed (i_cls s' id) = k_interviewed (i_cls s id)
  | Ok (VRet _) => k_interviewed (i_cls s' id) = true \/ (k_interviewed (i_cls s' id) = k_interviewed (i_cls s id) /\ no_version t id tr)
  | _ => False
  end.
(** what a class does once its version is known *)
Lemma body_turn t id v s s' os x : start_body t id v s = (s', os, x) ->
  match x with
  | XWait _ fs => fs = [FBody id]
  | XRes r => r = Ok (VRet None) /\ (forall t' o, In o os -> ~ starts t' id o) /\ ((v = 0 /\ s' = s) \/ (own_of id = Nothing /\ k_interviewed (i_cls s' id) = true))
  end.
Proof.
  unfold start_body. destruct (Z.eqb_spec v 0) as [->|]; [intros H; injection H as <- <- <-; split; [reflexivity|]; split; [intros ? ? []|auto]|]. cbv zeta. destruct (body_of id) as [g r a| |] eqn:B.
  - rewrite (own_new _ _ _ _ B). unfold irequest. cbn [nstep]. destruct (add_session _ _) as [f w]. intros H. injection H as <- <- <-. reflexivity.
  - cbn [body_end]. intros H. injection H as <- <- <-. split; [reflexivity|]. split; [intros t' o [<-|[]] S; exact S|]. right. split; [apply own_none, B|]. cbn. rewrite Z.eqb_refl. reflexivity.
  - intros H. injection H as <- <- <-. reflexivity.
Qed.
Lemma class_turn t id s s' os x : start_class t id s = (s', os, x) ->
  match x with
  | XWait _ fs => (fs = [FVersion id; FWrap id] /\ forall t' o, In o os -> ~ starts t' id o) \/ fs = [FBody id]
  | XRes r => r = Ok (VRet None) /\ (forall t' o, In o os -> ~ starts t' id o) /\ ((id = 0 /\ k_interviewed (i_cls s' id) = k_interviewed (i_cls s id)) \/ (own_of id = Nothing /\ k_interviewed (i_cls s' id) = true))
  end.
Proof.
  unfold start_class. cbv zeta. destruct (Z.eqb_spec (k_version (i_cls s id)) 0) as [|NV].
  - unfold ask_version. destruct (Z.eqb_spec id 0) as [->|N0].
    + cbn. intros H. injection H as <- <- <-. split; [reflexivity|]. split; [intros t' o [<-|[]] S; exact S|auto].
    + rewrite version_new. unfold irequest. cbn [nstep]. destruct (add_session _ _) as [f w]. cbn [iunder inote app map]. intros H. injection H as <- <- <-. left. split; [reflexivity|].
      intros t' o [<-|[<-|[<-|[]]]] S; try exact S. pose proof (version_says id id) as V. unfold starts in S. destruct (own_of id); try contradiction. destruct S. congruence.
  - destruct (start_body t id (k_version (i_cls s id)) s) as [[s2 os2] z] eqn:B. apply body_turn in B. cbn [inote app]. intros H. injection H as <- <- <-. destruct z as [w fs|r]; [auto|].
    destruct B as (-> & B & [[D _]|D]); [contradiction|]. split; [reflexivity|]. split; [|right; exact D]. intros t' o [<-|J] S; [exact S|exact (B _ _ J S)].
Qed.
(** the turn of a task that is in interview() of class [id] *)
Lemma class_step s tr es e n osn t s1 hd s2 os2 x id : linked s tr -> owning s tr -> turn s e n osn t s1 hd (s2, os2, x) -> calm t s1 s2 os2 x ->
  from_wire (tr ++ istamp (n_now (i_net s)) (map ONet osn ++ hd ++ os2 ++ fin t x)) -> own_typed (i_cls s) ->
  (e = ICall (CClass id) /\ unstarted t id tr) \/ ((forall c, e <> ICall c) /\ forall p, nth_error (i_tasks s) t = Some p -> class_course es tr t id p) ->
  class_course (es ++ [e]) (tr ++ istamp (n_now (i_net s)) (map ONet osn ++ hd ++ os2 ++ fin t x)) t id (pc_of x) /\
  forall r, x = XRes r -> flag_fact s s2 t id r (tr ++ istamp (n_now (i_net s)) (map ONet osn ++ hd ++ os2 ++ fin t x)).
Proof.
  intros L OW TN C W OT HY. set (os := map ONet osn ++ hd ++ os2 ++ fin t x). set (tr' := tr ++ istamp (n_now (i_net s)) os).
  assert (NS : unstarted t id tr -> (forall t' o, In o os2 -> ~ starts t' id o) -> unstarted t id tr').
  { intros A B n0 o J S. apply in_app_or in J as [J|J]; [exact (A _ _ J S)|]. apply in_istamp in J as [_ J]. exact (B _ _ (starts_tail _ _ _ _ _ _ _ _ _ _ _ _ _ TN J S) S). }
  destruct (head_over s tr e n osn t s1 hd s2 os2 x L OW TN C W OT) as [(id' & r & w & fs & Q & O & U & K & _)|(K & _ & [(c & -> & -> & ->)|(id' & u & fs & r & Q & RI & F)])].
  - destruct HY as [[-> _]|[_ HY]]. { exfalso. inversion TN; subst; try discriminate. apply nth_lt in Q. lia. }
    pose proof (HY _ Q) as CC. cbn in CC. destruct CC as [[CC _]|CC]; [discriminate|]. injection CC as -> ->. cbn [unwind] in U. injection U as <- <- <-. fold os in O. pose proof (over_ended _ _ _ _ es _ (n_now (i_net s)) _ O) as EN. fold tr' in EN.
    split.
    + destruct r as [b|y]; cbn; [auto|]. destruct y; cbn; auto; (split; [discriminate|auto]).
    + intros y E. injection E as <-. specialize (K id). rewrite Z.eqb_refl in K. destruct r as [[[]|]|y]; cbn in K |- *; auto. destruct y; cbn; auto.
  - destruct HY as [[E A]|[NC _]]; [|destruct (NC c eq_refl)]. injection E as ->. assert (G : start_class (List.length (i_tasks s)) id (listed s) = (s2, os2, x)) by (inversion TN as [e' n' osn' u r t0 fs s1' hd' r1 E1 ST R Q F Z|c' E1|t0 r id' fs s1' hd' r1 E1 Q F]; subst; try discriminate; injection E1 as <-; first [assumption|reflexivity]).
    apply class_turn in G. destruct x as [w fs|r]; cbn [pc_of class_course].
    + split; [|discriminate]. destruct G as [[-> G]| ->]; auto.
    + destruct G as (-> & G & D). split.
      * cbn. destruct D as [[-> _]|[D _]]; [left; split; [reflexivity|]; split; [left; reflexivity|apply NS; assumption]|right; left; unfold ended; rewrite D; reflexivity].
      * intros r E. injection E as <-. cbn. destruct D as [[-> D]|[_ D]]; [right; split; [exact D|left; reflexivity]|auto].
  - destruct HY as [[-> _]|[_ HY]]. { exfalso. inversion TN; subst; try discriminate. apply nth_lt in Q. lia. }
    pose proof (HY _ Q) as CC. cbn in CC. destruct CC as [[CC UN]|CC]; [|discriminate]. injection CC as -> ->.
    destruct (l_susp _ _ L _ _ _ Q) as (p & q & h & n0 & _ & _ & AS & TP). cbn [top] in TP. destruct TP as [-> ->].
    assert (VS : version_said t id r tr').
    { exists n0, (n_now (i_net s)), u, (version_q id). split; [apply in_or_app; auto|]. split; [reflexivity|]. apply in_or_app. right. apply in_istamp. split; [reflexivity|]. apply in_or_app. left. apply in_map, RI. }
    assert (G : exists r1, first [FVersion id; FWrap id] r (netted s n) = (s1, hd, XRes r1) /\ unwind t [FWrap id] r1 s1 = (s2, os2, x)).
    { inversion TN as [e' n' osn' u' r' t0 fs s1' hd' r1 E1 ST R Q' F' Z|c E1|t0 r' id' fs s1' hd' r1 E1 Q' F']; subst.
      - rewrite Q in Q'. injection Q' as <- <-. cbn [tl] in *. destruct (turn_net _ _ _ _ _ _ _ _ TN) as (_ & _ & _ & NS'). destruct NS' as [[_ ->]|(e'' & u'' & r0 & fs'' & _ & _ & _ & _ & UN')]; [destruct RI|].
        destruct (UN' _ _ RI) as [_ ->]. destruct (UN' _ _ (returned_in _ _ _ R)) as [_ ->]. exists r1. split; [exact F'|]. first [assumption|reflexivity].
      - destruct RI.
      - destruct RI. }
    destruct G as (r1 & F' & U). rewrite F in F'. injection F' as <-.
    assert (ST : exists e', nstep (i_net s) e' = Some (n, osn)).
    { destruct (turn_net _ _ _ _ _ _ _ _ TN) as (_ & _ & _ & NS'). destruct NS' as [[_ ->]|(e'' & u'' & r0 & fs'' & _ & ST & _)]; [destruct RI|eauto]. }
    destruct ST as [e' ST].
    assert (BODY : forall v, start_body t id v s1 = (s2, os2, x) -> (v = 0 -> no_version t id tr') -> class_course (es ++ [e]) tr' t id (pc_of x) /\ forall r, x = XRes r -> flag_fact s s2 t id r tr').
    { intros v B NV. apply body_turn in B. destruct x as [w fs|r']; cbn [pc_of class_course]; [split; [right; exact B|discriminate]|]. destruct B as (-> & B & D). split.
      - cbn. destruct D as [[-> _]|[D _]]; [left; split; [reflexivity|]; split; [apply NV; reflexivity|apply NS; assumption]|right; left; unfold ended; rewrite D; reflexivity].
      - intros y E. injection E as <-. cbn. destruct D as [[-> ->]|[_ D]]; [right; split; [apply K|apply NV; reflexivity]|auto]. }
    assert (FAIL : forall y, y <> ETimeout -> (version_said t id (RExc y) tr' \/ (y = EType /\ exists m, version_said t id (RMsg m) tr' /\ incomplete m)) -> (s1, [], XRes (Err y)) = (s2, os2, x) ->
       class_course (es ++ [e]) tr' t id (pc_of x) /\ forall r, x = XRes r -> flag_fact s s2 t id r tr').
    { intros y NT A E. injection E as <- <- <-. cbn. split; [auto|]. intros r' E. injection E as <-. apply K. }
    destruct r as [b|m|y].
    + destruct (no_bool _ _ _ _ _ _ ST RI).
    + destruct (reply_ok s tr e' n osn u m t [FVersion id; FWrap id] _ L ST RI Q W) as [zs FM]. pose proof (FM 1%nat _ 1%nat eq_refl eq_refl) as F1. cbn [a_name] in F1. rewrite F1 in U.
      destruct (nth_error zs 1) as [z|]; cbn [to_int] in U; cbn [unwind after_frame] in U.
      * destruct (start_body t id z s1) as [[s3 os3] y3] eqn:B. assert (E : (s3, os3, y3) = (s2, os2, x)) by (destruct y3; cbn [inote] in U; rewrite ?app_nil_r in U; exact U). injection E as -> -> ->.
        apply (BODY z B). intros ->. right. right. exists m. auto.
      * cbn [inote app] in U. apply (FAIL EType); [discriminate| |exact U]. right. split; [reflexivity|]. exists m. split; [exact VS|].
        destruct (reply _ _ _ _ _ _ _ _ _ L ST RI Q) as (q' & h' & TP' & HH & _). cbn [top] in TP'. destruct TP' as [_ ->]. unfold incomplete. rewrite HH. exists "commandClassVersion". split; [left; reflexivity|exact F1].
    + destruct y; cbn [unwind after_frame inote app] in U; try (eapply FAIL; [|left; exact VS|exact U]; discriminate).
      destruct (start_body t id 0 s1) as [[s3 os3] y3] eqn:B. assert (E : (s3, os3, y3) = (s2, os2, x)) by (destruct y3; cbn [inote] in U; rewrite ?app_nil_r in U; exact U). injection E as -> -> ->.
      apply (BODY 0 B). intros _. right. left. exact VS.
Qed.
Definition classes (es : list ievent) (s : istate) (tr : itrace) : Prop :=
  (forall n t id, In (n, OCall t (CClass id)) tr -> exists p, nth_error (i_tasks s) t = Some p /\ class_course es tr t id p) /\
  (forall n o t id, In (n, o) tr -> starts t id o -> (t < List.length (i_tasks s))%nat).
Lemma put_length t p ts : (t <= List.length ts)%nat -> (List.length ts <= List.length (put t p ts))%nat /\ (t < List.length (put t p ts))%nat.
Proof. intros L. unfold put. destruct (Nat.ltb_spec t (List.length ts)); [rewrite upd_length; lia|rewrite app_length; cbn; lia]. Qed.
Lemma turn_old s e n osn t s1 hd g : turn s e n osn t s1 hd g -> (exists c, e = ICall c /\ t = List.length (i_tasks s)) \/ ((forall c, e <> ICall c) /\ (t < List.length (i_tasks s))%nat).
Proof. intros T. destruct T as [e' n osn u r t fs s1 hd r1 E1 ST R Q F Z|c E1|t r id fs s1 hd r1 E1 Q F]; [right|left; eauto|right]; apply nth_lt in Q; split; auto; intros c ->; discriminate. Qed.
Lemma call_new s e n osn t s1 hd s2 os2 x n0 T t' c : turn s e n osn t s1 hd (s2, os2, x) -> calm t s1 s2 os2 x -> In (n0, OCall t' c) (istamp T (map ONet osn ++ hd ++ os2 ++ fin t x)) -> t' = t /\ e = ICall c /\ t = List.length (i_tasks s).
Proof.
  intros TN C J. rewrite stamp_app, stamp_app in J. apply in_app_or in J as [J|J]; [apply in_istamp in J as [_ J]; apply in_map_iff in J as (? & K & _); discriminate|].
  apply in_app_or in J as [J|J]; [|destruct (calls_calm _ _ _ _ _ _ _ _ _ C J)]. apply in_istamp in J as [_ J]. destruct (hd_shape _ _ _ _ _ _ _ _ TN) as [->|[[id ->]|(c' & -> & ->)]]; [destruct J|destruct J as [J|[]]; discriminate|].
  destruct J as [J|[]]. injection J as -> ->. split; [reflexivity|]. split; [reflexivity|]. destruct (turn_old _ _ _ _ _ _ _ _ TN) as [(c0 & _ & E)|[N _]]; [exact E|destruct (N _ eq_refl)].
Qed.
Lemma classes_step es s tr e s' os : linked s tr -> owning s tr -> classes es s tr -> istep s e = Some (s', os) -> from_wire (tr ++ istamp (n_now (i_net s)) os) -> own_typed (i_cls s) ->
  classes (es ++ [e]) s' (tr ++ istamp (n_now (i_net s)) os) /\
  forall n t id r, In (n, OCall t (CClass id)) (tr ++ istamp (n_now (i_net s)) os) -> In (ODone t r) os -> flag_fact s s' t id r (tr ++ istamp (n_now (i_net s)) os).
Proof.
  intros L OW [CL YO] H W OT. destruct (step_cases s tr e s' os L H) as [(e' & n & osn & -> & ST & -> & -> & NW)|(n & osn & t & s1 & hd & s2 & os2 & x & TN & C & -> & ->)].
  - split; [split|].
    + intros n0 t id J. apply in_app_or in J as [J|J]; [|apply in_istamp in J as [_ J]; apply in_map_iff in J as (? & K & _); discriminate]. destruct (CL _ _ _ J) as (p & Q & P). exists p. split; [exact Q|].
      apply class_more; [exact P|]. intros n1 o K S. apply in_istamp in K as [_ K]. apply in_map_iff in K as (? & <- & _). destruct S.
    + intros n0 o t id J S. apply in_app_or in J as [J|J]; [exact (YO _ _ _ _ J S)|]. apply in_istamp in J as [_ J]. apply in_map_iff in J as (? & <- & _). destruct S.
    + intros n0 t id r _ J. apply in_map_iff in J as (? & K & _). discriminate.
  - destruct (put_length t (pc_of x) (i_tasks s) (turn_len _ _ _ _ _ _ _ _ TN)) as [PL1 PL2]. destruct (turn_told _ _ _ _ _ _ _ _ TN) as [_ EN].
    assert (SO : forall n0 o t' id, In (n0, o) (istamp (n_now (i_net s)) (map ONet osn ++ hd ++ os2 ++ fin t x)) -> starts t' id o -> t' = t).
    { intros n0 o t' id J S. apply in_istamp in J as [_ J]. pose proof (starts_tail _ _ _ _ _ _ _ _ _ _ _ _ _ TN J S) as J'. destruct (ends_marks t os2 x id true EN) as (_ & _ & E3). exact (proj1 (E3 _ _ J' S)). }
    assert (CS : forall n0 id, In (n0, OCall t (CClass id)) (tr ++ istamp (n_now (i_net s)) (map ONet osn ++ hd ++ os2 ++ fin t x)) ->
       class_course (es ++ [e]) (tr ++ istamp (n_now (i_net s)) (map ONet osn ++ hd ++ os2 ++ fin t x)) t id (pc_of x) /\
       forall r, x = XRes r -> flag_fact s s2 t id r (tr ++ istamp (n_now (i_net s)) (map ONet osn ++ hd ++ os2 ++ fin t x))).
    { intros n0 id J. eapply class_step; try eassumption. apply in_app_or in J as [J|J].
      - right. destruct (CL _ _ _ J) as (p & Q & P). destruct (turn_old _ _ _ _ _ _ _ _ TN) as [(c & _ & E)|[N _]]; [apply nth_lt in Q; lia|]. split; [exact N|]. intros p' Q'. rewrite Q in Q'. injection Q' as <-. exact P.
      - left. destruct (call_new _ _ _ _ _ _ _ _ _ _ _ _ _ _ TN C J) as (_ & -> & E). split; [reflexivity|]. intros n1 o K S. pose proof (YO _ _ _ _ K S). lia. }
    split; [split|].
    + intros n0 t' id J. destruct (Nat.eq_dec t' t) as [->|N].
      * exists (pc_of x). split; [apply at_put, (turn_len _ _ _ _ _ _ _ _ TN)|]. exact (proj1 (CS _ _ J)).
      * apply in_app_or in J as [J|J]; [|destruct (call_new _ _ _ _ _ _ _ _ _ _ _ _ _ _ TN C J); contradiction]. destruct (CL _ _ _ J) as (p & Q & P). exists p. split; [apply other_put; assumption|].
        apply class_more; [exact P|]. intros n1 o K S. apply N. exact (SO _ _ _ _ K S).
    + cbn [i_tasks]. intros n0 o t' id J S. apply in_app_or in J as [J|J]; [pose proof (YO _ _ _ _ J S); lia|]. rewrite (SO _ _ _ _ J S). exact PL2.
    + intros n0 t' id r J D. assert (D' : In (n_now (i_net s), ODone t' r) (istamp (n_now (i_net s)) (map ONet osn ++ hd ++ os2 ++ fin t x))) by (apply in_istamp; auto).
      assert (t' = t /\ x = XRes r) as [-> ->].
      { rewrite stamp_app, stamp_app in D'. apply in_app_or in D' as [K|K]; [apply in_istamp in K as [_ K]; apply in_map_iff in K as (? & K & _); discriminate|].
        apply in_app_or in K as [K|K]; [|exact (done_calm _ _ _ _ _ _ _ _ _ C K)]. apply in_istamp in K as [_ K]. exfalso.
        destruct (hd_shape _ _ _ _ _ _ _ _ TN) as [->|[[i ->]|(c' & _ & ->)]]; [destruct K|destruct K as [K|[]]; discriminate|destruct K as [K|[]]; discriminate]. }
      exact (proj2 (CS _ _ J) r eq_refl).
Qed.
Lemma classes_exec ids cls es s tr : iexec (istate0 ids cls) es s tr -> from_wire tr -> sound cls -> classes es s tr.
Proof.
  intros X. induction X as [|es s tr e s' os X IH ST]; intros W SO; [split; [intros ? ? ? []|intros ? ? ? ? []]|].
  eapply classes_step; [eapply linked_exec; exact X|eapply owning_exec; exact X|exact (IH (wire_pre _ _ W) SO)|exact ST|exact W|]. eapply attr_exec; [exact X|exact (wire_pre _ _ W)|apply sound_typed, SO].
Qed.
Lemma result_exec ids cls es s tr n n' t id r : iexec (istate0 ids cls) es s tr -> from_wire tr -> sound cls -> In (n, OCall t (CClass id)) tr -> In (n', ODone t r) tr -> result_ok t id r es tr.
Proof.
  intros X W SO J D. destruct (classes_exec _ _ _ _ _ X W SO) as [CL _]. destruct (CL _ _ _ J) as (p & Q & P). pose proof (t_done _ _ _ _ (tour_exec _ _ _ _ _ X W SO) _ _ _ D) as Q'. rewrite Q in Q'. injection Q' as ->. exact P.
Qed.
Lemma fact_exec ids cls es s tr e s' os n t id r : iexec (istate0 ids cls) es s tr -> istep s e = Some (s', os) -> from_wire (tr ++ istamp (n_now (i_net s)) os) -> sound cls ->
  In (n, OCall t (CClass id)) (tr ++ istamp (n_now (i_net s)) os) -> In (ODone t r) os -> flag_fact s s' t id r (tr ++ istamp (n_now (i_net s)) os).
Proof.
  intros X ST W SO. eapply classes_step; [eapply linked_exec; exact X|eapply owning_exec; exact X|eapply classes_exec; [exact X|exact (wire_pre _ _ W)|exact SO]|exact ST|exact W|].
  eapply attr_exec; [exact X|exact (wire_pre _ _ W)|apply sound_typed, SO].
Qed.

(** ** a task interviews only the classes it visits *)
Definition visited (t : nat) (F : list iframe) (g : igo) : Prop :=
  let '(_, os, x) := g in
  (forall id o, In o os -> starts t id o -> In (OVisit t id) os \/ In (FWrap id) F) /\
  match x with XWait _ fs => forall id, In (FWrap id) fs -> In (OVisit t id) os \/ In (FWrap id) F | _ => True end.
Lemma visited_note t F os g : (forall id o, In o os -> starts t id o -> In (OVisit t id) os \/ In (FWrap id) F) -> visited t F g -> visited t F (inote os g).
Proof.
  intros H. destruct g as [[s os'] x]. intros [A B]. cbn. split.
  - intros id o J S. apply in_app_or in J as [J|J]; [destruct (H _ _ J S)|destruct (A _ _ J S)]; auto; left; apply in_or_app; auto.
  - destruct x; auto. intros id J. destruct (B _ J); auto. left. apply in_or_app. auto.
Qed.
Lemma visited_ask t id s F : visited t F (ask_version t id s).
Proof.
  unfold ask_version. destruct (id =? 0); [split; [intros ? ? []|exact I]|]. rewrite version_new. unfold irequest. cbn [nstep]. destruct (add_session _ _) as [f w]. cbn [iunder app map]. split.
  - intros j o [<-|[<-|[]]] S; [|destruct S]. exfalso. pose proof (version_says id j) as V. unfold starts in S. destruct (own_of j); try contradiction. destruct S as [_ S]. apply diff_false_true. rewrite <- V. exact S.
  - intros j [J|[]]. discriminate.
Qed.
Lemma visited_body t id v s F : In (FWrap id) F -> visited t F (start_body t id v s).
Proof.
  intros IF. unfold start_body. destruct (v =? 0); [split; [intros ? ? []|exact I]|]. cbv zeta. destruct (body_of id) as [g r a| |] eqn:B.
  - rewrite (own_new _ _ _ _ B). unfold irequest. cbn [nstep]. destruct (add_session _ _) as [f w]. cbn [iunder app map]. split; [|intros j [J|[]]; discriminate].
    intros j o [<-|[<-|[]]] S; [|destruct S]. right. pose proof (own_says _ _ _ _ j B) as V. unfold starts in S. destruct (own_of j); try contradiction. destruct S as [_ S]. rewrite S in V. symmetry in V. apply Z.eqb_eq in V. subst. exact IF.
  - cbn [body_end]. split; [|exact I]. intros j o [<-|[]] S. destruct S.
  - split; [|intros j [J|[]]; discriminate]. intros j o [<-|[]] S. unfold starts in S. destruct (own_of j); try contradiction. destruct S as [_ ->]. auto.
Qed.
Lemma visited_class t id s F : visited t F (start_class t id s).
Proof.
  assert (W : forall g, visited t (FWrap id :: F) g -> visited t F (inote [OVisit t id] g)).
  { intros [[s' os] x] [A B]. cbn. split.
    - intros j o [<-|J] S; [destruct S|]. destruct (A _ _ J S) as [K|[K|K]]; auto. injection K as ->. auto.
    - destruct x; auto. intros j J. destruct (B _ J) as [K|[K|K]]; auto. injection K as ->. auto. }
  unfold start_class. apply W. cbv zeta. destruct (k_version (i_cls s id) =? 0); [|apply visited_body; left; reflexivity].
  pose proof (visited_ask t id s (FWrap id :: F)) as A. destruct (ask_version t id s) as [[s1 os1] x] eqn:E. apply ask_out in E as [_ E]. destruct x as [w fs|r].
  - destruct A as [A B]. subst fs. cbn [iunder app]. split; [exact A|]. intros j [J|[J|[]]]; [discriminate|]. injection J as ->. right. left. reflexivity.
  - subst r. destruct A as [A _]. apply visited_note; [exact A|]. apply visited_body. left. reflexivity.
Qed.
Lemma visited_visit t rest F : forall s, visited t F (visit t rest s).
Proof.
  induction rest as [|id rest IH]; intros s; [split; [intros ? ? []|exact I]|]. cbn [visit]. pose proof (visited_class t id s F) as A. destruct (start_class t id s) as [[s1 os1] x].
  assert (G : visited t F (s1, os1, x) -> visited t F (inote os1 (visit t rest s1))) by (intros [H _]; exact (visited_note t F os1 _ H (IH s1))).
  destruct x as [w fs|[v|e]]; [|exact (G A)|destruct e; try exact A; exact (G A)]. destruct A as [A B]. split; [exact A|]. intros j J. apply in_app_or in J as [J|[J|[]]]; [exact (B _ J)|discriminate].
Qed.
Lemma visited_unwind t fs : forall r s F, incl fs F -> visited t F (unwind t fs r s).
Proof.
  induction fs as [|f fs IH]; intros r s F IF; [split; [intros ? ? []|exact I]|]. cbn [unwind].
  assert (A : visited t F (after_frame t f r s)).
  { assert (R : forall r, visited t F (s, [], XRes r)) by (split; [intros ? ? []|exact I]). destruct f, r as [[]|[]]; cbn [after_frame]; first [apply R|apply visited_body; apply IF; left; reflexivity|apply visited_visit]. }
  assert (IF' : incl fs F) by (intros y J; apply IF; right; exact J). destruct (after_frame t f r s) as [[s1 os1] [w g|r']]; destruct A as [A B].
  - split; [exact A|]. intros j J. apply in_app_or in J as [J|J]; [exact (B _ J)|]. right. apply IF', J.
  - apply visited_note; [exact A|apply IH, IF'].
Qed.
Lemma turn_visited s e n osn t s1 hd g : turn s e n osn t s1 hd g ->
  visited t (match nth_error (i_tasks s) t with Some (ISusp _ fs) => fs | _ => [] end) g.
Proof.
  intros T. destruct T as [e' n osn u r t fs s1 hd r1 E1 ST R Q F Z|c E1|t r id fs s1 hd r1 E1 Q F].
  - rewrite Q. apply visited_unwind. intros y J. destruct fs; [destruct J|right; exact J].
  - destruct c; [apply visited_visit|apply visited_class|apply visited_ask].
  - rewrite Q. apply visited_unwind. intros y J. right. exact J.
Qed.
Definition seen (s : istate) (tr : itrace) : Prop :=
  (forall t w fs id, nth_error (i_tasks s) t = Some (ISusp w fs) -> In (FWrap id) fs -> exists n, In (n, OVisit t id) tr) /\
  (forall n o t id, In (n, o) tr -> starts t id o -> exists n, In (n, OVisit t id) tr).
Lemma seen_step s tr e s' os : linked s tr -> seen s tr -> istep s e = Some (s', os) -> seen s' (tr ++ istamp (n_now (i_net s)) os).
Proof.
  intros L [S1 S2] H. assert (MORE : forall t id x, (exists n, In (n, OVisit t id) tr) -> exists n, In (n, OVisit t id) (tr ++ x)) by (intros t id x [n J]; exists n; apply in_or_app; auto).
  destruct (step_cases s tr e s' os L H) as [(e' & n & osn & -> & ST & -> & -> & NW)|(n & osn & t & s1 & hd & s2 & os2 & x & TN & C & -> & ->)].
  - split; [intros t w fs id Q J; apply MORE; exact (S1 _ _ _ _ Q J)|]. intros n0 o t id J S. apply in_app_or in J as [J|J]; [apply MORE; exact (S2 _ _ _ _ J S)|]. apply in_istamp in J as [_ J]. apply in_map_iff in J as (? & <- & _). destruct S.
  - destruct (turn_visited _ _ _ _ _ _ _ _ TN) as [V1 V2]. destruct (turn_told _ _ _ _ _ _ _ _ TN) as [_ EN].
    assert (OLD : forall id, In (OVisit t id) os2 \/ In (FWrap id) (match nth_error (i_tasks s) t with Some (ISusp _ fs) => fs | _ => [] end) -> exists n0, In (n0, OVisit t id) (tr ++ istamp (n_now (i_net s)) (map ONet osn ++ hd ++ os2 ++ fin t x))).
    { intros id [J|J].
      - exists (n_now (i_net s)). apply in_or_app. right. apply in_istamp. split; [reflexivity|]. apply in_or_app. right. apply in_or_app. right. apply in_or_app. auto.
      - apply MORE. destruct (nth_error (i_tasks s) t) as [[w fs|]|] eqn:Q; [exact (S1 _ _ _ _ Q J)|destruct J|destruct J]. }
    split.
    + cbn [i_tasks]. intros t' w fs id Q J. destruct (put_at _ _ _ _ _ Q (turn_len _ _ _ _ _ _ _ _ TN)) as [[-> E]|[N Q']]; [|apply MORE; exact (S1 _ _ _ _ Q' J)]. destruct x as [w' g|r]; [|discriminate]. cbn in E. injection E as <- <-. apply OLD, V2, J.
    + intros n0 o t' id J S. apply in_app_or in J as [J|J]; [apply MORE; exact (S2 _ _ _ _ J S)|]. apply in_istamp in J as [_ J]. pose proof (starts_tail _ _ _ _ _ _ _ _ _ _ _ _ _ TN J S) as J'.
      destruct (ends_marks t os2 x id true EN) as (_ & _ & E3). destruct (E3 _ _ J' S) as [-> _]. exact (OLD _ (V1 _ _ J' S)).
Qed.
Lemma seen_exec ids cls es s tr : iexec (istate0 ids cls) es s tr -> seen s tr.
Proof. induction 1 as [|es s tr e s' os X IH ST]; [split; [intros [|t] ? ? ? Q; discriminate|intros ? ? ? ? []]|]. eapply seen_step; [eapply linked_exec; exact X|exact IH|exact ST]. Qed.
Lemma over_starts t id r e tr os : over t id r e tr os -> exists n o, In (n, o) tr /\ starts t id o.
Proof.
  unfold over, starts. destruct (own_of id).
  - intros (n & u & q & x & A & B & _). exists n, (OAsk t u q). auto.
  - intros [_ A]. unfold own_last in A. set (l := flat_map _ tr) in A. assert (J : In (Some id) l). { revert A. generalize l. clear. intros l. induction l as [|y l IH] using rev_ind; [discriminate|]. rewrite last_last. intros ->. apply in_or_app. right. left. reflexivity. }
    apply in_flat_map in J as ([n o] & J & K). destruct o; try (destruct K; fail). destruct (Nat.eqb_spec t0 t) as [->|]; [|destruct K]. destruct K as [K|[]]. injection K as ->. exists n, (OOwn t id). auto.
  - intros [].
Qed.
Definition pending (p : ipc) (id : Z) : Prop := (exists w, p = ISusp w [FBody id]) \/ p = IEnd (Ok (VRet (Some false))).
Lemma alone_exec ids cls es s tr n t id : iexec (istate0 ids cls) es s tr -> from_wire tr -> sound cls -> In (n, OCall t (CClass id)) tr -> (forall n0 t', In (n0, OVisit t' id) tr -> t' = t) -> own_of id <> Nothing ->
  forall p, nth_error (i_tasks s) t = Some p -> pending p id -> k_interviewed (i_cls s id) = false.
Proof.
  intros X. induction X as [|es s tr e s' os X IH ST]; intros W SO J AL NN p Q P; [destruct J|].
  pose proof (wire_pre _ _ W) as W0. pose proof (linked_exec _ _ _ _ _ X) as L. pose proof (owning_exec _ _ _ _ _ X) as OW. assert (OT : own_typed (i_cls s)) by (eapply attr_exec; [exact X|exact W0|apply sound_typed, SO]).
  assert (AL0 : forall n0 t', In (n0, OVisit t' id) tr -> t' = t) by (intros n0 t' K; apply (AL n0); apply in_or_app; auto).
  pose proof (story_exec _ _ _ _ _ _ _ _ X ST W SO id) as (F1 & F2 & F3 & F4). destruct (classes_exec _ _ _ _ _ X W0 SO) as [CL _].
  destruct (k_interviewed (i_cls s' id)) eqn:K'; [exfalso|reflexivity].
  assert (SET : k_interviewed (i_cls s id) = false -> exists r, over t id (Ok r) e tr os /\ r <> Some false).
  { intros K. specialize (F2 K eq_refl). assert (exists t r, r <> Some false /\ over t id (Ok r) e tr os) as (t' & r & N & O) by (destruct (own_of id); [exact F2|exact F2|congruence]).
    destruct (over_starts _ _ _ _ _ _ O) as (n0 & o & OJ & OS). destruct (proj2 (seen_exec _ _ _ _ _ X) _ _ _ _ OJ OS) as [n1 V]. apply AL0 in V. subst t'. eauto. }
  destruct (step_cases s tr e s' os L ST) as [(e' & m & osn & -> & SN & -> & -> & NW)|(m & osn & t1 & s1 & hd & s2 & os2 & x & TN & C & -> & ->)].
  - cbn [netted i_cls i_tasks] in *. assert (J0 : In (n, OCall t (CClass id)) tr) by (apply in_app_or in J as [J|J]; [exact J|apply in_istamp in J as [_ J]; apply in_map_iff in J as (? & K & _); discriminate]).
    rewrite (IH W0 SO J0 AL0 NN p Q P) in K'. discriminate.
  - cbn [i_cls i_tasks] in *. pose proof (head_over s tr e m osn t1 s1 hd s2 os2 x L OW TN C W OT) as HO. cbv zeta in HO. destruct (turn_told _ _ _ _ _ _ _ _ TN) as [MK EN].
    destruct (put_at _ _ _ _ _ Q (turn_len _ _ _ _ _ _ _ _ TN)) as [[E ->]|[N Q']].
    + subst t1. destruct P as [[w E]|E].
      * destruct x as [w' fs|r]; [|discriminate]. cbn in E. injection E as -> ->.
        assert (exists o, In o os2 /\ starts t id o) as (o & OI & OS).
        { cbn [ends] in EN. destruct w as [u|].
          - destruct EN as (g & r & a & c & l & B & -> & _). exists (OAsk t u (VObj (CMsg g) [])). split; [apply in_or_app; right; left; reflexivity|]. unfold starts. rewrite (own_asks _ _ _ _ B). split; [reflexivity|]. apply says_eq, (own_wire _ _ _ _ B).
          - destruct EN as (B & a & -> & _). exists (OOwn t id). split; [apply in_or_app; right; left; reflexivity|]. unfold starts. rewrite (own_env _ B). auto. }
        discriminate (F3 t o (in_or_app _ _ _ (or_intror (in_or_app _ _ _ (or_intror (in_or_app _ _ _ (or_introl OI)))))) OS).
      * destruct x as [w' fs|r]; [discriminate|]. cbn in E. injection E as ->.
        assert (FF : k_interviewed (i_cls s2 id) = k_interviewed (i_cls s id)).
        { pose proof (fact_exec _ _ _ _ _ _ _ _ n t id (Ok (VRet (Some false))) X ST W SO J) as FF. apply FF. apply in_or_app. right. apply in_or_app. right. apply in_or_app. right. left. reflexivity. }
        destruct (turn_old _ _ _ _ _ _ _ _ TN) as [(c & -> & E)|[NC LT]].
        { apply in_app_or in J as [J|J]; [destruct (CL _ _ _ J) as (p0 & Q0 & _); apply nth_lt in Q0; lia|]. destruct (call_new _ _ _ _ _ _ _ _ _ _ _ _ _ _ TN C J) as (_ & E0 & _). injection E0 as ->.
          assert (G : start_class t id (listed s) = (s2, os2, XRes (Ok (VRet (Some false))))) by (inversion TN as [e' n' osn' u r t0 fs s1' hd' r1 E1 S1 R Q1 F Z|c' E1|t0 r id' fs s1' hd' r1 E1 Q1 F]; subst; try discriminate; injection E1 as <-; first [assumption|reflexivity]).
          apply class_turn in G. destruct G as [G _]. discriminate. }
        assert (J0 : In (n, OCall t (CClass id)) tr) by (apply in_app_or in J as [J|J]; [exact J|destruct (call_new _ _ _ _ _ _ _ _ _ _ _ _ _ _ TN C J) as (_ & E0 & _); destruct (NC _ E0)]).
        destruct (CL _ _ _ J0) as (p0 & Q0 & P0). assert (P1 : pending p0 id); [|rewrite FF, (IH W0 SO J0 AL0 NN p0 Q0 P1) in K'; discriminate].
        destruct HO as [(id' & r & w & fs & Q1 & _)|(_ & _ & [(c & -> & _)|(id' & u & fs & r & Q1 & RI & F)])].
        -- rewrite Q0 in Q1. injection Q1 as ->. cbn in P0. destruct P0 as [[P0 _]|P0]; [discriminate|]. injection P0 as -> ->. left. eauto.
        -- destruct (NC c eq_refl).
        -- exfalso. rewrite Q0 in Q1. injection Q1 as ->. cbn in P0. destruct P0 as [[P0 _]|P0]; [|discriminate]. injection P0 as -> ->.
           assert (G : exists r1, unwind t [FWrap id] r1 s1 = (s2, os2, XRes (Ok (VRet (Some false)))) /\ fits true r1).
           { inversion TN as [e' n' osn' u' r' t0 fs s1' hd' r1 E1 S1 R Q1 F' Z|c E1|t0 r' id' fs s1' hd' r1 E1 Q1 F']; subst; try (destruct RI; fail).
             rewrite Q0 in Q1. injection Q1 as <- <-. cbn [tl] in *. exists r1. split; [first [assumption|reflexivity]|]. cbn [first] in F'. unfold got_version in F'. destruct r' as [b|y|y].
             - injection F' as _ _ <-. discriminate.
             - pose proof (returned_in _ _ _ R) as RI'. destruct (reply_ok s tr e' m osn u y t [FVersion id; FWrap id] _ L S1 RI' Q0 W) as [zs FM]. pose proof (FM 1%nat _ 1%nat eq_refl eq_refl) as G1. cbn [a_name] in G1. rewrite G1 in F'.
               destruct (nth_error zs 1); cbn [to_int] in F'; injection F' as _ _ <-; [reflexivity|discriminate].
             - destruct y; injection F' as _ _ <-; first [reflexivity|discriminate]. }
           destruct G as (r1 & U & FI). destruct r1 as [[v|b|]|y]; cbn in FI; try contradiction; try discriminate; cbn [unwind after_frame] in U.
           ++ destruct (start_body t id v s1) as [[s3 os3] y3] eqn:B. destruct y3; cbn [inote] in U; [discriminate|]. injection U as -> _ ->. apply body_turn in B. destruct B as [B _]. discriminate.
    + assert (J0 : In (n, OCall t (CClass id)) tr) by (apply in_app_or in J as [J|J]; [exact J|destruct (call_new _ _ _ _ _ _ _ _ _ _ _ _ _ _ TN C J); subst; contradiction]).
      destruct (SET (IH W0 SO J0 AL0 NN p Q' P)) as (r & O & _). destruct HO as [(id' & r' & w & fs & _ & _ & _ & _ & UN)|(_ & NO & _)]; [destruct (UN _ _ _ O); subst; contradiction|exact (NO _ _ _ O)].
Qed.
Lemma alone_false ids cls es s tr n n' t id : iexec (istate0 ids cls) es s tr -> from_wire tr -> sound cls -> In (n, OCall t (CClass id)) tr -> (forall n0 t', In (n0, OVisit t' id) tr -> t' = t) ->
  In (n', ODone t (Ok (VRet (Some false)))) tr -> k_interviewed (i_cls s id) = false.
Proof.
  intros X W SO J AL D. assert (NN : own_of id <> Nothing).
  { intros E. pose proof (result_exec _ _ _ _ _ _ _ _ _ _ X W SO J D) as R. cbn in R. unfold ended in R. rewrite E in R. destruct R as [[R _]|[R|[_ R]]]; discriminate. }
  eapply alone_exec; try eassumption; [exact (t_done _ _ _ _ (tour_exec _ _ _ _ _ X W SO) _ _ _ D)|]. right. reflexivity.
Qed.
