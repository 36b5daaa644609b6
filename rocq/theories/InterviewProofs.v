(** Proofs about interviews. *)
From Coq Require Import String ZArith List Bool Lia.
From Verif Require Import Py Schema Registry Codec Waiter Conn ConnLemmas NodeReq SpecNodeReq NodeReqProofs NodeFresh ClassProofs InterviewM SpecInterview.
Import ListNotations.
Open Scope list_scope.
Open Scope string_scope.
Open Scope list_scope.
Open Scope Z_scope.

(** ** questions *)
Definition version_q (id : Z) : val := VObj (CMsg m_Version_VersionCommandClassGet) [("requestedCommandClass", VI false 1 id)].
Lemma version_new id : new_msg m_Version_VersionCommandClassGet [("requestedCommandClass", VInt id)] = Ok (version_q id).
Proof. reflexivity. Qed.
Lemma version_wire id : byte id -> compose (version_q id) = Ok (version_question id).
Proof. intros B. apply (every_byte (fun i => compose (version_q i)) (fun i => Ok (version_question i))); [vm_compute; reflexivity|exact B]. Qed.
Lemma own_new id g r a : body_of id = BCopy g r a -> new_msg g [] = Ok (VObj (CMsg g) []).
Proof.
  unfold body_of. destruct (id =? 134); [intros H; injection H as <- <- <-; reflexivity|]. destruct (id =? 94); [intros H; injection H as <- <- <-; reflexivity|].
  destruct (id =? 114); [intros H; injection H as <- <- <-; reflexivity|]. destruct (_ || _); discriminate.
Qed.
Lemma same_bytes_eq a : forall b, same_bytes a b = true <-> a = b.
Proof.
  induction a as [|x a IH]; intros [|y b]; cbn; split; intros H; try reflexivity; try discriminate.
  - apply andb_prop in H as [A B]. apply Z.eqb_eq in A. apply IH in B. congruence.
  - injection H as -> ->. rewrite Z.eqb_refl. apply IH. reflexivity.
Qed.
Lemma says_eq q w : says q w = true <-> compose q = Ok w.
Proof.
  unfold says. destruct (compose q) as [l|e].
  - rewrite same_bytes_eq. split; congruence.
  - split; discriminate.
Qed.

(** ** what the functions of a task do *)
Definition benign (t : nat) (o : iobs) : Prop := match o with OVisit t' _ | OOwn t' _ => t' = t | OUpdated _ => True | _ => False end.
(** the question [q] for reports of type [h] is the one that frame is waiting for *)
Definition top (fs : list iframe) (q : val) (h : Z) : Prop :=
  match fs with
  | FVersion id :: _ => q = version_q id /\ h = s_hid m_Version_VersionCommandClassReport
  | FBody id :: _ => exists g r a, body_of id = BCopy g r a /\ q = VObj (CMsg g) [] /\ h = s_hid r
  | _ => False
  end.
Definition own_top (fs : list iframe) : Prop := match fs with FBody id :: _ => body_of id = BEnv | _ => False end.
Definition next (s : istate) : nat := List.length (n_tasks (i_net s)).
Definition bare (id : Z) : Prop := match body_of id with BCopy _ _ _ => False | _ => True end.
Record calm (t : nat) (s s' : istate) (os : list iobs) (x : iout) : Prop := mkCalm {
  c_tasks : i_tasks s' = i_tasks s;
  c_ids : i_ids s' = i_ids s;
  c_data : forall id, k_version (i_cls s' id) = k_version (i_cls s id) /\ k_attrs (i_cls s' id) = k_attrs (i_cls s id);
  c_flag : forall id, k_interviewed (i_cls s' id) = true -> k_interviewed (i_cls s id) = true \/ (In (OUpdated id) os /\ bare id);
  c_net : (i_net s' = i_net s /\ Forall (benign t) os /\ match x with XWait (WReq _) _ => False | XWait WEnv fs => own_top fs | XRes _ => True end) \/
          (exists os0 q h fs, os = os0 ++ [OAsk t (next s) q; ONet (NCall (next s) (NReq h 3000))] /\ Forall (benign t) os0 /\
             nstep (i_net s) (NEvCall (NReq h 3000)) = Some (i_net s', [NCall (next s) (NReq h 3000)]) /\ x = XWait (WReq (next s)) fs /\ top fs q h) }.

Definition calmg (t : nat) (s : istate) (g : igo) : Prop := let '(s', os, x) := g in calm t s s' os x.
Lemma calm_refl t s r : calm t s s [] (XRes r).
Proof. constructor; auto. Qed.
Lemma top_more fs fs' q h : top fs q h -> top (fs ++ fs') q h.
Proof. destruct fs as [|[]]; cbn; auto; intros []. Qed.
Lemma own_more fs fs' : own_top fs -> own_top (fs ++ fs').
Proof. destruct fs as [|[]]; cbn; auto; intros []. Qed.
Lemma calm_wait t s s' os w fs fs' : calm t s s' os (XWait w fs) -> calm t s s' os (XWait w (fs ++ fs')).
Proof.
  intros [A B C D E]. constructor; auto. destruct E as [(E1 & E2 & E3)|(os0 & q & h & fs0 & E1 & E2 & E3 & E4 & E5)].
  - left. split; [exact E1|]. split; [exact E2|]. destruct w; [exact E3|apply own_more, E3].
  - injection E4 as -> ->. right. exists os0, q, h, (fs0 ++ fs'). auto 10 using top_more.
Qed.
Lemma calm_seq t s s1 s2 os1 os2 r x : calm t s s1 os1 (XRes r) -> calm t s1 s2 os2 x -> calm t s s2 (os1 ++ os2) x.
Proof.
  intros [A B C D E] [A' B' C' D' E']. destruct E as [(E1 & E2 & E3)|(os0 & q & h & fs0 & E1 & E2 & E3 & E4 & E5)]; [|discriminate E4].
  constructor; [congruence|congruence| | |].
  - intros id. destruct (C id), (C' id). split; congruence.
  - intros id K. destruct (D' id K) as [K'|[K' N]]; [destruct (D id K') as [K2|[K2 N]]; [auto|right; split; [apply in_or_app; auto|exact N]]|right; split; [apply in_or_app; auto|exact N]].
  - destruct E' as [(F1 & F2 & F3)|(os0 & q & h & fs0 & F1 & F2 & F3 & F4 & F5)].
    + left. split; [congruence|]. split; [apply Forall_app; auto|exact F3].
    + right. unfold next in *. rewrite E1 in *. exists (os1 ++ os0), q, h, fs0. rewrite F1, app_assoc. split; [reflexivity|]. split; [apply Forall_app; auto|]. auto.
Qed.
Lemma calm_note t s os g : Forall (benign t) os -> calmg t s g -> calmg t s (inote os g).
Proof.
  intros B. destruct g as [[s' os'] x]. intros H. apply (calm_seq t s s s' os os' (Ok VNode) x); [|exact H].
  constructor; auto.
Qed.
Lemma calm_under t s f g : calmg t s g -> calmg t s (iunder f g).
Proof. destruct g as [[s' os'] []]; cbn; [apply calm_wait|auto]. Qed.
Lemma calm_request t q h s f : top [f] q h -> calmg t s (iunder f (irequest t q h s)).
Proof.
  intros T. unfold irequest. cbn [nstep]. destruct (add_session h (n_w (i_net s))) as [g w] eqn:A. cbn. constructor; auto. right.
  exists [], q, h, [f]. cbn. unfold next. rewrite A. auto 8.
Qed.
Lemma calm_ask t id s : calmg t s (ask_version t id s).
Proof.
  unfold ask_version. destruct (id =? 0); [apply calm_refl|]. rewrite version_new. apply calm_request. cbn. auto.
Qed.
Lemma calm_body_ok t id rv s : bare id -> calmg t s (body_end id (Ok rv) s).
Proof.
  intros B. cbn. constructor; try (destruct rv as [[]|]; reflexivity).
  - intros j. destruct rv as [[]|]; cbn; auto; destruct (Z.eqb_spec j id) as [->|]; auto.
  - intros j. destruct rv as [[]|]; cbn; auto; destruct (Z.eqb_spec j id) as [->|]; auto 8.
  - left. split; [destruct rv as [[]|]; reflexivity|]. split; [repeat constructor|exact I].
Qed.
Lemma calm_flag t s s1 : i_tasks s1 = i_tasks s -> i_net s1 = i_net s -> i_ids s1 = i_ids s ->
  (forall j, i_cls s1 j = i_cls s j \/ i_cls s1 j = mkK (k_version (i_cls s j)) false (k_attrs (i_cls s j))) ->
  forall s2 os x, calm t s1 s2 os x -> calm t s s2 os x.
Proof.
  intros A B C D s2 os x H. change os with ([] ++ os). eapply calm_seq; [|exact H]. apply (mkCalm t s s1 [] (XRes (Ok VNode))); auto.
  - intros j. destruct (D j) as [->| ->]; auto.
  - intros j. destruct (D j) as [->| ->]; auto. discriminate.
Qed.
Lemma calm_start_body t id v s : calmg t s (start_body t id v s).
Proof.
  unfold start_body. destruct (v =? 0); [apply calm_refl|]. cbv zeta. set (s1 := set_cls _ _ s).
  assert (W : forall g, calmg t s1 g -> calmg t s g).
  { intros [[s2 os] x]. apply (calm_flag t s s1); try reflexivity. intros j. subst s1. cbn. destruct (Z.eqb_spec j id) as [->|]; auto. }
  apply W. destruct (body_of id) as [g r a| |] eqn:E.
  - rewrite (own_new _ _ _ _ E). apply calm_request. cbn. eauto 8.
  - apply calm_body_ok. unfold bare. rewrite E. exact I.
  - constructor; auto. left. split; [reflexivity|]. split; [repeat constructor|]. exact E.
Qed.
Lemma calm_start_class t id s : calmg t s (start_class t id s).
Proof.
  unfold start_class. apply calm_note; [repeat constructor|]. cbv zeta. destruct (k_version (i_cls s id) =? 0); [|apply calm_start_body].
  pose proof (calm_ask t id s) as A. destruct (ask_version t id s) as [[s1 os1] x]. destruct x as [w fs|[[v|r|]|e]].
  - apply (calm_under t s (FWrap id) (s1, os1, XWait w fs)), A.
  - pose proof (calm_start_body t id v s1) as B. destruct (start_body t id v s1) as [[s2 os2] y]. exact (calm_seq _ _ _ _ _ _ _ _ A B).
  - apply (calm_under t s (FWrap id) (s1, os1, XRes (Ok (VRet r)))), A.
  - apply (calm_under t s (FWrap id) (s1, os1, XRes (Ok VNode))), A.
  - apply (calm_under t s (FWrap id) (s1, os1, XRes (Err e))), A.
Qed.
Lemma calm_visit t rest : forall s, calmg t s (visit t rest s).
Proof.
  induction rest as [|id rest IH]; intros s; [apply calm_refl|]. cbn [visit]. pose proof (calm_start_class t id s) as A.
  destruct (start_class t id s) as [[s1 os1] x].
  assert (G : forall r, calm t s s1 os1 (XRes r) -> calmg t s (inote os1 (visit t rest s1))).
  { intros r H. specialize (IH s1). destruct (visit t rest s1) as [[s2 os2] y]. exact (calm_seq _ _ _ _ _ _ _ _ H IH). }
  destruct x as [w fs|[v|e]]; [apply calm_wait, A|exact (G _ A)|]. destruct e; try exact A. exact (G _ A).
Qed.
Lemma calm_after t f r s : calmg t s (after_frame t f r s).
Proof. destruct f, r as [[]|[]]; cbn [after_frame]; first [apply calm_refl|apply calm_start_body|apply calm_visit]. Qed.
Lemma calm_unwind t fs : forall r s, calmg t s (unwind t fs r s).
Proof.
  induction fs as [|f fs IH]; intros r s; [apply calm_refl|]. cbn [unwind]. pose proof (calm_after t f r s) as A.
  destruct (after_frame t f r s) as [[s1 os1] [w g|r']]; [apply calm_wait, A|]. specialize (IH r' s1). destruct (unwind t fs r' s1) as [[s2 os2] y].
  exact (calm_seq _ _ _ _ _ _ _ _ A IH).
Qed.

(** ** steps *)
Definition pc_of (x : iout) : ipc := match x with XWait w fs => ISusp w fs | XRes r => IEnd r end.
Definition fin (t : nat) (x : iout) : list iobs := match x with XWait _ _ => [] | XRes r => [ODone t r] end.
Definition first (fs : list iframe) (r : result) (s : istate) : igo :=
  match fs with
  | FVersion id :: _ => got_version id r s
  | FBody id :: _ => match body_of id with BCopy _ _ attrs => got_report id attrs r s | _ => (s, [], XRes (Err EUnmodelled)) end
  | _ => (s, [], XRes (Err EUnmodelled))
  end.
Definition netted (s : istate) (n : nstate) : istate := mkI n (i_ids s) (i_cls s) (i_tasks s).
Definition listed (s : istate) : istate := mkI (i_net s) (i_ids s) (i_cls s) (i_tasks s ++ [IEnd (Ok VNode)]).
Inductive turn (s : istate) (e : ievent) : nstate -> list nobs -> nat -> istate -> list iobs -> igo -> Prop :=
| T_ans e' n osn u r t fs s1 hd r1 : e = INet e' -> nstep (i_net s) e' = Some (n, osn) -> returned osn = Some (u, r) ->
    nth_error (i_tasks s) t = Some (ISusp (WReq u) fs) -> first fs r (netted s n) = (s1, hd, XRes r1) ->
    (match fs with FVersion _ :: _ => True | FBody id :: _ => ~ bare id | _ => False end) ->
    turn s e n osn t s1 hd (unwind t (tl fs) r1 s1)
| T_call c : e = ICall c -> turn s e (i_net s) [] (List.length (i_tasks s)) (listed s) [OCall (List.length (i_tasks s)) c]
    (match c with CNode => visit (List.length (i_tasks s)) (i_ids s) (listed s) | CClass id => start_class (List.length (i_tasks s)) id (listed s)
     | CVersion id => ask_version (List.length (i_tasks s)) id (listed s) end)
| T_own t r id fs s1 hd r1 : e = IOwn t r -> nth_error (i_tasks s) t = Some (ISusp WEnv (FBody id :: fs)) -> body_end id r s = (s1, hd, XRes r1) ->
    turn s e (i_net s) [] t s1 hd (unwind t fs r1 s1).
Definition put (t : nat) (p : ipc) (ts : list ipc) : list ipc := if (t <? List.length ts)%nat then upd t p ts else ts ++ [p].

Lemma waiting_in u ts : forall k t fs, waiting_for u k ts = Some (t, fs) -> exists i, t = (k + i)%nat /\ nth_error ts i = Some (ISusp (WReq u) fs).
Proof.
  induction ts as [|p ts IH]; intros k t fs H; [discriminate|].
  assert (N : waiting_for u (S k) ts = Some (t, fs) -> exists i, t = (k + i)%nat /\ nth_error (p :: ts) i = Some (ISusp (WReq u) fs)).
  { intros Q. destruct (IH _ _ _ Q) as (i & -> & E). exists (S i). split; [lia|exact E]. }
  cbn in H. destruct p as [[u'|] fs'|r]; auto. destruct (Nat.eqb_spec u' u) as [->|]; auto. injection H as <- <-. exists O. split; [lia|reflexivity].
Qed.
Lemma waiting_none u ts : forall k, waiting_for u k ts = None -> forall i fs, nth_error ts i <> Some (ISusp (WReq u) fs).
Proof.
  induction ts as [|p ts IH]; intros k H i fs E; [destruct i; discriminate|].
  assert (N : waiting_for u (S k) ts = None).
  { cbn in H. destruct p as [[u'|] fs'|r]; auto. destruct (Nat.eqb u' u); [discriminate|exact H]. }
  destruct i as [|i]; [|exact (IH _ N i fs E)]. cbn in E. injection E as ->. cbn in H. rewrite Nat.eqb_refl in H. discriminate.
Qed.
Lemma first_res fs r s : exists s1 hd r1, first fs r s = (s1, hd, XRes r1) /\ i_net s1 = i_net s /\ i_tasks s1 = i_tasks s /\ i_ids s1 = i_ids s /\ (hd = [] \/ exists id, hd = [OUpdated id]).
Proof.
  assert (B : forall id x s, exists s1 hd r1, body_end id x s = (s1, hd, XRes r1) /\ i_net s1 = i_net s /\ i_tasks s1 = i_tasks s /\ i_ids s1 = i_ids s /\ (hd = [] \/ exists id, hd = [OUpdated id])).
  { intros id x s0. unfold body_end. destruct x as [rv|e]; [|destruct e; do 3 eexists; split; [reflexivity|auto..]; auto].
    do 3 eexists. split; [reflexivity|]. destruct rv as [[]|]; cbn; eauto 8. }
  unfold first. destruct fs as [|[id|id|id|rest] fs]; try (do 3 eexists; split; [reflexivity|]; auto).
  - unfold got_version. destruct r as [b|m|e].
    + do 3 eexists. split; [reflexivity|]. auto.
    + destruct (to_int (getattr m "commandClassVersion")); do 3 eexists; (split; [reflexivity|]); cbn; eauto 8.
    + destruct e; do 3 eexists; (split; [reflexivity|]); auto.
  - destruct (body_of id) as [g rp a| |]; try (do 3 eexists; split; [reflexivity|]; auto).
    unfold got_report. destruct r as [b|m|e].
    + do 3 eexists. split; [reflexivity|]. auto.
    + destruct (copy a a m (k_attrs (i_cls s id))) as [d x]. match goal with |- exists s1 hd r1, body_end ?i ?x ?y = _ /\ _ => destruct (B i x y) as (s1 & hd & r1 & E & E1 & E2 & E3 & E4) end.
      exists s1, hd, r1. auto.
    + apply B.
Qed.
Lemma returned_in osn u r : returned osn = Some (u, r) -> In (NRet u r) osn.
Proof.
  unfold returned. intros H. assert (In (NRet u r) (filter (fun o => match o with NRet _ _ => true | _ => false end) osn)).
  { destruct (filter _ osn) as [|[] l]; try discriminate. injection H as <- <-. left. reflexivity. }
  apply filter_In in H0. apply H0.
Qed.
(** at most one request returns in a step, and that is the last thing *)
Lemma one_return s e n osn : nstep s e = Some (n, osn) -> (returned osn = None /\ forall u r, ~ In (NRet u r) osn) \/
  exists pre u r, osn = pre ++ [NRet u r] /\ returned osn = Some (u, r) /\ (forall u' r', ~ In (NRet u' r') pre) /\ n_now n = n_now s.
Proof.
  assert (F : forall t r s0 n osn, Some (n_finish t r s0) = Some (n, osn) -> n_now s0 = n_now s -> osn = [NRet t r] /\ n_now n = n_now s).
  { intros t r s0 n0 osn0 Q E. unfold n_finish in Q. injection Q as <- <-. split; [reflexivity|]. rewrite setpc_now. exact E. }
  assert (Y : forall t r n osn, osn = [NRet t r] /\ n_now n = n_now s -> (returned osn = None /\ forall u r, ~ In (NRet u r) osn) \/
     exists pre u r, osn = pre ++ [NRet u r] /\ returned osn = Some (u, r) /\ (forall u' r', ~ In (NRet u' r') pre) /\ n_now n = n_now s).
  { intros t r n0 osn0 [-> E]. right. exists [], t, r. cbn. auto. }
  intros H. destruct e as [dt|c|t r|m|t|t|t]; cbn [nstep] in H.
  - destruct (0 <=? dt); [|discriminate]. injection H as <- <-. left. split; [reflexivity|]. intros u r [].
  - destruct c; [destruct (add_session h (n_w s))|]; injection H as <- <-; left; (split; [reflexivity|]); intros u r [Q|[]]; discriminate.
  - destruct (nth_error (n_tasks s) t) as [[[h tmo|h tmo] []]|]; try discriminate. destruct r as [[]|e]; unfold n_finish in H; injection H as <- <-.
    + left. split; [reflexivity|]. intros u r [Q|[]]; discriminate.
    + right. do 3 eexists. split; [apply (app_assoc [_] [])|]. split; [reflexivity|]. split; [intros u' r' [Q|[]]; discriminate|apply setpc_now].
    + right. do 3 eexists. split; [apply (app_assoc [_] [])|]. split; [reflexivity|]. split; [intros u' r' [Q|[]]; discriminate|apply setpc_now].
  - destruct m; try discriminate. destruct (message_received _ _). injection H as <- <-. left. split; [reflexivity|]. intros u r' [Q|[]]; discriminate.
  - destruct (nth_error (n_tasks s) t) as [[c [|h f dl []| |]]|]; try discriminate. destruct (dl <=? n_now s); [|discriminate]. injection H as <- <-.
    left. split; [reflexivity|]. intros u r [].
  - destruct (nth_error (n_tasks s) t) as [[c [|h f dl ph|h f|]]|]; try discriminate.
    + unfold n_resume in H. destruct (nth_error (w_futs (n_w s)) f) as [[|v|]|]; destruct ph; try discriminate H.
      all: try (apply F in H; [|reflexivity]; eapply Y; exact H). injection H as <- <-. left. split; [reflexivity|]. intros u r [].
    + apply F in H; [|reflexivity]. eapply Y; exact H.
  - destruct (nth_error (n_tasks s) t) as [[c [|h f dl ph|h f|]]|]; try discriminate.
    + apply F in H; [|reflexivity]. eapply Y; exact H.
    + injection H as <- <-. left. split; [reflexivity|]. intros u r [].
Qed.
Lemma done_ret s e n osn : nstep s e = Some (n, osn) -> forall u x r, nth_error (n_tasks n) u = Some x -> n_pc x = NDone r ->
  nth_error (n_tasks s) u = Some x \/ In (NRet u r) osn.
Proof.
  assert (P : forall t p s0 u x r, n_tasks s0 = n_tasks s -> nth_error (n_tasks (n_setpc t p s0)) u = Some x -> n_pc x = NDone r ->
     nth_error (n_tasks s) u = Some x \/ (u = t /\ p = NDone r)).
  { intros t p s0 u x r T G D. destruct (nth_error (n_tasks s0) t) as [y|] eqn:E; [|unfold n_setpc in G; rewrite E, T in G; auto].
    destruct (setpc_at t p s0 y u x E G) as [[-> ->]|[_ Q]]; [cbn in D; auto|rewrite T in Q; auto]. }
  assert (WP : forall t h tmo s0, exists f w dl ph, n_wait t h tmo s0 = n_setpc t (NWaiting h f dl ph) (n_setw w s0)).
  { intros t h tmo s0. unfold n_wait. destruct (add_session h (n_w s0)) as [f w]. destruct (0 <? tmo); [do 4 eexists; reflexivity|].
    destruct (nth_error (w_futs w) f) as [[]|]; do 4 eexists; reflexivity. }
  intros H u x r G D. destruct e as [dt|c|t v|m|t|t|t]; cbn [nstep] in H.
  - destruct (0 <=? dt); [|discriminate]. injection H as <- <-. auto.
  - destruct c as [h tmo|h tmo].
    + destruct (add_session h (n_w s)). injection H as <- <-. cbn in G. rewrite nth_snoc in G. destruct (Nat.eqb u _); [injection G as <-; discriminate|auto].
    + injection H as <- <-. destruct (WP (List.length (n_tasks s)) h tmo (mkN (n_now s) (n_w s) (n_tasks s ++ [mkNT (NWait h tmo) NSending]))) as (f & w & dl & ph & E). rewrite E in G.
      set (s0 := n_setw w _) in G. destruct (nth_error (n_tasks s0) (List.length (n_tasks s))) as [y|] eqn:Y; [|subst s0; cbn in Y; rewrite nth_snoc, Nat.eqb_refl in Y; discriminate].
      destruct (setpc_at _ _ s0 y u x Y G) as [[-> ->]|[N Q]]; [discriminate D|]. subst s0. cbn in Q. rewrite nth_snoc in Q. destruct (Nat.eqb_spec u (List.length (n_tasks s))); [contradiction|auto].
  - destruct (nth_error (n_tasks s) t) as [[[h tmo|h tmo] []]|]; try discriminate. destruct v as [[]|e]; unfold n_finish in H; injection H as <- <-.
    + destruct (WP t h tmo s) as (f & w & dl & ph & E). rewrite E in G. destruct (P t _ (n_setw w s) u x r eq_refl G D) as [Q|[_ Q]]; [auto|discriminate].
    + destruct (P t _ s u x r eq_refl G D) as [Q|[-> Q]]; [auto|injection Q as <-; right; cbn; auto].
    + destruct (P t _ s u x r eq_refl G D) as [Q|[-> Q]]; [auto|injection Q as <-; right; cbn; auto].
  - destruct m; try discriminate. destruct (message_received _ _). injection H as <- <-. auto.
  - destruct (nth_error (n_tasks s) t) as [[c [|h f dl []| |]]|]; try discriminate. destruct (dl <=? n_now s); [|discriminate]. injection H as <- <-.
    destruct (P t _ s u x r eq_refl G D) as [Q|[_ Q]]; [auto|discriminate].
  - destruct (nth_error (n_tasks s) t) as [[c [|h f dl ph|h f|]]|]; try discriminate.
    + unfold n_resume, n_finish in H. destruct (nth_error (w_futs (n_w s)) f) as [[|v|]|]; destruct ph; try discriminate H; injection H as <- <-.
      all: match type of G with nth_error (n_tasks (n_setpc _ _ ?z)) _ = _ => destruct (P t _ z u x r eq_refl G D) as [Q|[-> Q]] end; [auto|]; first [discriminate|injection Q as <-; right; cbn; auto].
    + unfold n_finish in H. injection H as <- <-. match type of G with nth_error (n_tasks (n_setpc _ _ ?z)) _ = _ => destruct (P t _ z u x r eq_refl G D) as [Q|[-> Q]] end; [auto|]. injection Q as <-; right; cbn; auto.
  - destruct (nth_error (n_tasks s) t) as [[c [|h f dl ph|h f|]]|]; try discriminate; unfold n_finish in H; injection H as <- <-.
    + destruct (P t _ s u x r eq_refl G D) as [Q|[-> Q]]; [auto|injection Q as <-; right; cbn; auto].
    + match type of G with nth_error (n_tasks (n_setpc _ _ ?z)) _ = _ => destruct (P t _ z u x r eq_refl G D) as [Q|[-> Q]] end; [auto|discriminate].
Qed.

(** ** the trace of the requests *)
Definition nets (tr : itrace) : ntrace := flat_map (fun x => match x with (n, ONet o) => [(n, o)] | _ => [] end) tr.
Lemma nets_app a b : nets (a ++ b) = nets a ++ nets b. Proof. apply flat_map_app. Qed.
Lemma nets_map T os : nets (istamp T (map ONet os)) = nstamp T os.
Proof. induction os as [|o os IH]; [reflexivity|]. cbn. f_equal. exact IH. Qed.
Definition plain (o : iobs) : Prop := match o with ONet _ | OAsk _ _ _ => False | _ => True end.
Lemma benign_plain t o : benign t o -> plain o. Proof. destruct o; cbn; auto. Qed.
Lemma nets_plain T os : Forall plain os -> nets (istamp T os) = [].
Proof. induction 1 as [|o os H _ IH]; [reflexivity|]. cbn. destruct o; try exact IH; destruct H. Qed.
Lemma stamp_app T a b : istamp T (a ++ b) = istamp T a ++ istamp T b. Proof. apply map_app. Qed.
Lemma in_istamp T n os o : In (n, o) (istamp T os) <-> n = T /\ In o os.
Proof. unfold istamp. rewrite in_map_iff. split; [intros (x & E & J); injection E as <- <-; auto|intros [-> J]; eauto]. Qed.
Lemma in_nets n o tr : In (n, o) (nets tr) <-> In (n, ONet o) tr.
Proof.
  unfold nets. rewrite in_flat_map. split.
  - intros ([n2 o2] & J & K). destruct o2; try (destruct K; fail). destruct K as [K|[]]. injection K as -> ->. exact J.
  - intros J. exists (n, ONet o). split; [exact J|]. left. reflexivity.
Qed.

(** ** requests and tasks belong together *)
Record linked (s : istate) (tr : itrace) : Prop := mkLinked {
  l_net : exists es, nexec nstate0 es (i_net s) (nets tr);
  l_susp : forall t u fs, nth_error (i_tasks s) t = Some (ISusp (WReq u) fs) -> exists p q h n,
    nth_error (n_tasks (i_net s)) u = Some (mkNT (NReq h 3000) p) /\ (forall r, p <> NDone r) /\ In (n, OAsk t u q) tr /\ top fs q h;
  l_env : forall t fs, nth_error (i_tasks s) t = Some (ISusp WEnv fs) -> own_top fs;
  l_uniq : forall t t' u fs fs', nth_error (i_tasks s) t = Some (ISusp (WReq u) fs) -> nth_error (i_tasks s) t' = Some (ISusp (WReq u) fs') -> t = t';
  l_ask : forall n t u q, In (n, OAsk t u q) tr -> (u < List.length (n_tasks (i_net s)))%nat /\
    ((exists fs h, nth_error (i_tasks s) t = Some (ISusp (WReq u) fs) /\ top fs q h) \/ exists n r, In (n, ONet (NRet u r)) tr) }.

Lemma step_cases s tr e s' os : linked s tr -> istep s e = Some (s', os) ->
  (exists e' n osn, e = INet e' /\ nstep (i_net s) e' = Some (n, osn) /\ s' = netted s n /\ os = map ONet osn /\
     (forall u r t fs, In (NRet u r) osn -> nth_error (i_tasks s) t <> Some (ISusp (WReq u) fs))) \/
  (exists n osn t s1 hd s2 os2 x, turn s e n osn t s1 hd (s2, os2, x) /\ calm t s1 s2 os2 x /\
     s' = mkI (i_net s2) (i_ids s) (i_cls s2) (put t (pc_of x) (i_tasks s)) /\ os = map ONet osn ++ hd ++ os2 ++ fin t x).
Proof.
  intros L H. destruct e as [e|c|t r]; cbn [istep] in H.
  - destruct (nstep (i_net s) e) as [[n osn]|] eqn:E; [|discriminate]. injection H as H.
    destruct (one_return _ _ _ _ E) as [[R NR]|(pre & u & r & -> & R & NP & NN)].
    + rewrite R in H. injection H as <- <-. left. exists e, n, osn. repeat (split; [reflexivity || exact E|]). intros u r t fs J. destruct (NR u r J).
    + rewrite R in H. cbn [i_tasks] in H. destruct (waiting_for u 0 (i_tasks s)) as [[t fs]|] eqn:W.
      * right. destruct (waiting_in _ _ _ _ _ W) as (i & TI & Q). cbn in TI. subst i.
        destruct (l_susp s tr L t u fs Q) as (p & q & h & n0 & S1 & S2 & S3 & S4).
        destruct (first_res fs r (netted s n)) as (s1 & hd & r1 & F & F1 & F2 & F3 & F4).
        destruct (unwind t (tl fs) r1 s1) as [[s2 os2] x] eqn:U.
        assert (A : answered t fs r (netted s n) = (s2, hd ++ os2, x)).
        { unfold answered. destruct fs as [|[id|id|id|rest] fs]; cbn [top] in S4; try contradiction; cbn [tl] in U.
          - cbn [first] in F. rewrite F. cbn [ithen]. rewrite U. reflexivity.
          - destruct S4 as (g0 & r0 & a0 & B & _). cbn [first] in F. rewrite B in F |- *. rewrite F. cbn [ithen]. rewrite U. reflexivity. }
        assert (TN : turn s (INet e) n (pre ++ [NRet u r]) t s1 hd (s2, os2, x)).
        { rewrite <- U. eapply T_ans; try eassumption; [reflexivity|]. destruct fs as [|[id|id|id|rest] fs]; cbn [top] in S4; try contradiction; auto.
          destruct S4 as (g0 & r0 & a0 & B & _). unfold bare. rewrite B. auto. }
        assert (C : calm t s1 s2 os2 x). { pose proof (calm_unwind t (tl fs) r1 s1) as C. rewrite U in C. exact C. }
        fold (netted s n) in H. rewrite A in H.
        exists n, (pre ++ [NRet u r]), t, s1, hd, s2, os2, x. split; [exact TN|]. split; [exact C|].
        assert (P : forall p, put t p (i_tasks s) = upd t p (i_tasks s)). { intros p0. unfold put. apply nth_lt in Q. destruct (Nat.ltb_spec t (List.length (i_tasks s))); [reflexivity|lia]. }
        rewrite P. destruct C as [C1 C2 _ _ _]. unfold settle in H. destruct x as [w g|v]; injection H as <- <-; rewrite C1, C2, F2, F3; cbn [netted i_ids i_tasks pc_of fin]; rewrite ?app_nil_r, <- ?app_assoc; auto.
      * left. injection H as <- <-. exists e, n, (pre ++ [NRet u r]). repeat (split; [reflexivity || exact E|]). intros u' r' t fs J.
        apply in_app_or in J as [J|[J|[]]]; [destruct (NP _ _ J)|]. injection J as <- <-. exact (waiting_none _ _ _ W t fs).
  - right. destruct (match c with CNode => true | CClass id | CVersion id => existsb (Z.eqb id) (i_ids s) end); [|discriminate]. fold (listed s) in H. set (t := List.length (i_tasks s)) in *.
    assert (G : exists g, g = match c with CNode => visit t (i_ids s) (listed s) | CClass id => start_class t id (listed s) | CVersion id => ask_version t id (listed s) end) by eauto.
    destruct G as [[[s2 os2] x] G]. assert (C : calm t (listed s) s2 os2 x).
    { change (calmg t (listed s) (s2, os2, x)). rewrite G. destruct c; [apply calm_visit|apply calm_start_class|apply calm_ask]. }
    cbn [i_ids listed] in H. fold (listed s) in H. rewrite <- G in H. exists (i_net s), [], t, (listed s), [OCall t c], s2, os2, x. split; [rewrite G; apply T_call; reflexivity|]. split; [exact C|].
    assert (P : forall p, put t p (i_tasks s) = i_tasks s ++ [p]). { intros p0. unfold put. destruct (Nat.ltb_spec t (List.length (i_tasks s))); [subst t; lia|reflexivity]. }
    assert (P' : forall p, upd t p (i_tasks s ++ [IEnd (Ok VNode)]) = i_tasks s ++ [p]). { intros p0. subst t. clear. induction (i_tasks s) as [|y l IH]; [reflexivity|]. cbn. f_equal. exact IH. }
    rewrite P. destruct C as [C1 C2 _ _ _]. cbn [listed i_tasks i_ids] in C1, C2. unfold settle in H. destruct x as [w g|v]; injection H as <- <-; rewrite C1, C2, P'; cbn [pc_of fin app map]; rewrite ?app_nil_r; auto.
  - right. destruct (nth_error (i_tasks s) t) as [[[|] [|[] fs]|]|] eqn:Q; try discriminate. injection H as H.
    assert (B : exists s1 hd r1, body_end id r s = (s1, hd, XRes r1) /\ i_tasks s1 = i_tasks s /\ i_ids s1 = i_ids s).
    { unfold body_end. destruct r as [rv|e]; [|destruct e; do 3 eexists; (split; [reflexivity|]); auto]. do 3 eexists. split; [reflexivity|]. destruct rv as [[]|]; auto. }
    destruct B as (s1 & hd & r1 & B & B1 & B2). rewrite B in H. cbn [ithen] in H. destruct (unwind t fs r1 s1) as [[s2 os2] x] eqn:U.
    assert (C : calm t s1 s2 os2 x). { pose proof (calm_unwind t fs r1 s1) as C. rewrite U in C. exact C. }
    exists (i_net s), [], t, s1, hd, s2, os2, x. split; [rewrite <- U; eapply T_own; eauto|]. split; [exact C|].
    assert (P : forall p, put t p (i_tasks s) = upd t p (i_tasks s)). { intros p0. unfold put. apply nth_lt in Q. destruct (Nat.ltb_spec t (List.length (i_tasks s))); [reflexivity|lia]. }
    rewrite P. destruct C as [C1 C2 _ _ _]. unfold settle in H. cbn [inote] in H. destruct x as [w g|v]; injection H as <- <-; rewrite C1, C2, B1, B2; cbn [map app pc_of fin]; rewrite ?app_nil_r, <- ?app_assoc; auto.
Qed.

Lemma turn_net s e n osn t s1 hd g : turn s e n osn t s1 hd g ->
  i_net s1 = n /\ Forall plain hd /\ n_now n = n_now (i_net s) /\
  ((n = i_net s /\ osn = []) \/ exists e' u r fs, e = INet e' /\ nstep (i_net s) e' = Some (n, osn) /\ nth_error (i_tasks s) t = Some (ISusp (WReq u) fs) /\
     returned osn = Some (u, r) /\ forall u' r', In (NRet u' r') osn -> u' = u /\ r' = r).
Proof.
  intros [e' n' osn' u r t' fs s1' hd' r1 -> ST R Q F _|c|t' r id fs s1' hd' r1 -> Q F].
  - destruct (first_res fs r (netted s n')) as (s0 & hd0 & r0 & F0 & F1 & F2 & F3 & F4). rewrite F in F0. injection F0 as <- <- <-.
    destruct (one_return _ _ _ _ ST) as [[R' _]|(pre & u0 & r0 & -> & R' & NP & NN)]; [congruence|]. rewrite R in R'. injection R' as <- <-.
    split; [exact F1|]. split; [destruct F4 as [->|[id ->]]; repeat constructor|]. split; [exact NN|]. right. exists e', u, r, fs. split; [reflexivity|]. split; [exact ST|]. split; [exact Q|]. split; [exact R|].
    intros u' r' J. apply in_app_or in J as [J|[J|[]]]; [destruct (NP _ _ J)|]. injection J as <- <-. auto.
  - split; [reflexivity|]. split; [repeat constructor|]. auto.
  - unfold body_end in F. destruct r as [rv|x].
    + injection F as <- <- <-. split; [destruct rv as [[]|]; reflexivity|]. split; [repeat constructor|]. auto.
    + assert (K : s = s1' /\ hd' = []) by (destruct x; injection F as <- <- <-; auto). destruct K as [<- ->]. split; [reflexivity|]. split; [constructor|]. auto.
Qed.
Lemma fin_plain t x : Forall plain (fin t x). Proof. destruct x; repeat constructor. Qed.
Lemma forall_plain t os : Forall (benign t) os -> Forall plain os.
Proof. intros H. eapply Forall_impl; [|exact H]. apply benign_plain. Qed.
Lemma put_at t p ts j y : nth_error (put t p ts) j = Some y -> (t <= List.length ts)%nat -> (j = t /\ y = p) \/ (j <> t /\ nth_error ts j = Some y).
Proof.
  unfold put. destruct (Nat.ltb_spec t (List.length ts)) as [L|L]; intros H T.
  - rewrite nth_upd in H. destruct (Nat.eqb_spec t j) as [->|N]; [|auto]. destruct (nth_error ts j); [injection H as <-; auto|discriminate].
  - rewrite nth_snoc in H. destruct (Nat.eqb_spec j (List.length ts)) as [->|N]; [injection H as <-; left; split; [lia|reflexivity]|]. right. split; [|exact H].
    intros ->. lia.
Qed.
Lemma at_put t p ts : (t <= List.length ts)%nat -> nth_error (put t p ts) t = Some p.
Proof.
  intros T. unfold put. destruct (Nat.ltb_spec t (List.length ts)) as [L|L].
  - destruct (nth_error ts t) as [y|] eqn:E; [|apply nth_error_None in E; lia]. eapply nth_upd_same. exact E.
  - rewrite nth_snoc. replace (Nat.eqb t (List.length ts)) with true by (symmetry; apply Nat.eqb_eq; lia). reflexivity.
Qed.
Lemma other_put t p ts j y : nth_error ts j = Some y -> j <> t -> nth_error (put t p ts) j = Some y.
Proof.
  intros H N. unfold put. destruct (t <? List.length ts)%nat.
  - rewrite nth_upd_other; auto.
  - rewrite nth_snoc. apply nth_lt in H as L. destruct (Nat.eqb_spec j (List.length ts)); [lia|exact H].
Qed.
Lemma turn_len s e n osn t s1 hd g : turn s e n osn t s1 hd g -> (t <= List.length (i_tasks s))%nat.
Proof. intros [? ? ? ? ? ? ? ? ? ? ? ? ? Q ? ?|? ?|? ? ? ? ? ? ? ? Q ?]; try (apply nth_lt in Q; lia). lia. Qed.

Lemma net_keep s e n osn u c p : nstep s e = Some (n, osn) -> nth_error (n_tasks s) u = Some (mkNT c p) -> (forall r, p <> NDone r) ->
  (forall r, ~ In (NRet u r) osn) -> exists p', nth_error (n_tasks n) u = Some (mkNT c p') /\ forall r, p' <> NDone r.
Proof.
  intros ST E N NR. destruct (step_tasks _ _ _ _ ST) as (KT & _). destruct (KT u _ E) as ([c' p'] & E' & C & _). cbn in C. subst c'. exists p'. split; [exact E'|].
  intros r ->. destruct (done_ret _ _ _ _ ST u _ r E' eq_refl) as [Q|Q]; [|exact (NR r Q)]. rewrite E in Q. injection Q as ->. exact (N r eq_refl).
Qed.

Lemma linked_step s tr e s' os : linked s tr -> istep s e = Some (s', os) -> linked s' (tr ++ istamp (n_now (i_net s)) os).
Proof.
  intros L H. pose proof (l_net _ _ L) as [es X]. set (T := n_now (i_net s)) in *.
  destruct (step_cases s tr e s' os L H) as [(e' & n & osn & -> & ST & -> & -> & NW)|(n & osn & t & s1 & hd & s2 & os2 & x & TN & C & -> & ->)].
  - destruct (step_tasks _ _ _ _ ST) as (KT & LN & _). constructor.
    + exists (es ++ [e']). rewrite nets_app, nets_map. econstructor; eassumption.
    + intros t u fs Q. cbn [i_tasks netted] in Q. destruct (l_susp _ _ L t u fs Q) as (p & q & h & n0 & S1 & S2 & S3 & S4).
      destruct (net_keep _ _ _ _ u _ p ST S1 S2) as (p' & P1 & P2); [intros r J; exact (NW u r t fs J Q)|]. exists p', q, h, n0. split; [exact P1|]. split; [exact P2|]. split; [apply in_or_app; auto|exact S4].
    + exact (l_env _ _ L).
    + exact (l_uniq _ _ L).
    + intros n0 t u q J. apply in_app_or in J as [J|J].
      * destruct (l_ask _ _ L n0 t u q J) as [A B]. split; [cbn; lia|]. destruct B as [B|(n1 & r & B)]; [left; exact B|right; exists n1, r; apply in_or_app; auto].
      * apply in_istamp in J as [_ J]. apply in_map_iff in J as (? & ? & _). discriminate.
  - destruct (turn_net _ _ _ _ _ _ _ _ TN) as (N1 & HP & NT & NS). pose proof (turn_len _ _ _ _ _ _ _ _ TN) as TL.
    assert (X1 : exists es, nexec nstate0 es n (nets tr ++ nstamp T osn)).
    { destruct NS as [[-> ->]|(e' & u & r & fs & _ & ST & _)]; [exists es; cbn; rewrite app_nil_r; exact X|exists (es ++ [e']); econstructor; eassumption]. }
    assert (K1 : forall u c p, nth_error (n_tasks (i_net s)) u = Some (mkNT c p) -> (forall r, p <> NDone r) -> (forall fs, nth_error (i_tasks s) t <> Some (ISusp (WReq u) fs)) ->
                 exists p', nth_error (n_tasks n) u = Some (mkNT c p') /\ forall r, p' <> NDone r).
    { intros u c p E N NW. destruct NS as [[-> ->]|(e' & u' & r' & fs & _ & ST & Q & _ & ONE)]; [eauto|].
      eapply net_keep; try eassumption. intros r J. apply ONE in J as [-> _]. exact (NW fs Q). }
    assert (LN : (List.length (n_tasks (i_net s)) <= List.length (n_tasks n))%nat).
    { destruct NS as [[-> _]|(e' & u' & r' & fs & _ & ST & _)]; [lia|]. destruct (step_tasks _ _ _ _ ST) as (_ & Q & _). lia. }
    assert (OLD : forall n0 t' u q, In (n0, OAsk t' u q) tr -> (u < List.length (n_tasks (i_net s)))%nat /\
       ((exists fs h, t' <> t /\ nth_error (i_tasks s) t' = Some (ISusp (WReq u) fs) /\ top fs q h) \/ exists n1 r, In (n1, ONet (NRet u r)) (tr ++ istamp T (map ONet osn ++ hd ++ os2 ++ fin t x)))).
    { intros n0 t' u q J. destruct (l_ask _ _ L n0 t' u q J) as [A B]. split; [exact A|]. destruct B as [(fs & h & B1 & B2)|(n1 & r & B)]; [|right; exists n1, r; apply in_or_app; auto].
      destruct (Nat.eq_dec t' t) as [->|N]; [|left; exists fs, h; auto].
      inversion TN as [e' n' osn' u' r t0 fs' s1' hd' r1 E1 ST R Q F Z|c E1|t0 r id fs' s1' hd' r1 E1 Q F]; subst.
      - rewrite Q in B1. injection B1 as <- <-. right. exists T, r. apply in_or_app. right. apply in_istamp. split; [reflexivity|]. apply in_or_app. left. apply in_map. apply returned_in. exact R.
      - apply nth_lt in B1. lia.
      - rewrite Q in B1. discriminate. }
    assert (NETS : forall y, Forall plain y -> nets (tr ++ istamp T (map ONet osn ++ hd ++ y)) = nets tr ++ nstamp T osn).
    { intros y P. rewrite nets_app, stamp_app, nets_app, nets_map. rewrite (nets_plain T (hd ++ y)) by (apply Forall_app; auto). rewrite app_nil_r. reflexivity. }
    destruct C as [C1 C2 C3 C4 [(E1 & E2 & E3)|(os0 & q & h & fs & E1 & E2 & E3 & E4 & E5)]]; rewrite N1 in *.
    + assert (PL : Forall plain (os2 ++ fin t x)) by (apply Forall_app; split; [eapply forall_plain; exact E2|apply fin_plain]). constructor; cbn [i_net i_tasks].
      * rewrite E1. rewrite NETS by exact PL. exact X1.
      * intros t' u fs Q. rewrite E1. destruct (put_at _ _ _ _ _ Q TL) as [[-> Y]|[N Y]]; [destruct x as [[]|]; try discriminate Y; destruct E3|].
        destruct (l_susp _ _ L t' u fs Y) as (p & q & h & n0 & S1 & S2 & S3 & S4).
        destruct (K1 u _ p S1 S2) as (p' & P1 & P2); [intros fs' Q'; apply N; exact (l_uniq _ _ L _ _ _ _ _ Y Q')|]. exists p', q, h, n0. split; [exact P1|]. split; [exact P2|]. split; [apply in_or_app; auto|exact S4].
      * intros t' fs Q. destruct (put_at _ _ _ _ _ Q TL) as [[-> Y]|[N Y]]; [|exact (l_env _ _ L _ _ Y)]. destruct x as [[]|]; try discriminate Y. injection Y as ->. exact E3.
      * intros t1 t2 u f1 f2 Q1 Q2. destruct (put_at _ _ _ _ _ Q1 TL) as [[-> Y]|[N1' Y1]]; [destruct x as [[]|]; try discriminate Y; destruct E3|].
        destruct (put_at _ _ _ _ _ Q2 TL) as [[-> Y]|[N2' Y2]]; [destruct x as [[]|]; try discriminate Y; destruct E3|]. exact (l_uniq _ _ L _ _ _ _ _ Y1 Y2).
      * intros n0 t' u q J. rewrite E1. apply in_app_or in J as [J|J].
        -- destruct (OLD _ _ _ _ J) as [A B]. split; [lia|]. destruct B as [(fs & h & B0 & B1 & B2)|B]; [left; exists fs, h; split; [apply other_put; assumption|exact B2]|right; exact B].
        -- apply in_istamp in J as [_ J]. apply in_app_or in J as [J|J]; [apply in_map_iff in J as (? & ? & _); discriminate|].
           assert (P : Forall plain (hd ++ os2 ++ fin t x)) by (apply Forall_app; auto). rewrite Forall_forall in P. destruct (P _ J).
    + set (u0 := next s1) in *. assert (U0 : u0 = List.length (n_tasks n)) by (subst u0; unfold next; rewrite N1; reflexivity).
      subst x os2. cbn [pc_of fin]. rewrite app_nil_r. destruct (step_tasks _ _ _ _ E3) as (KT & LN3 & NC & _). destruct (NC _ eq_refl) as [_ (y & Y1 & Y2)]. rewrite <- U0 in Y1.
      assert (YS : exists p, nth_error (n_tasks (i_net s2)) u0 = Some (mkNT (NReq h 3000) p) /\ forall r, p <> NDone r).
      { destruct y as [cy py]. cbn in Y2. subst cy. exists py. split; [exact Y1|]. intros r ->. destruct (done_ret _ _ _ _ E3 u0 _ r Y1 eq_refl) as [Q|[Q|[]]]; [apply nth_lt in Q; lia|discriminate]. }
      assert (AS : In (T, OAsk t u0 q) (tr ++ istamp T (map ONet osn ++ hd ++ os0 ++ [OAsk t u0 q; ONet (NCall u0 (NReq h 3000))]))).
      { apply in_or_app. right. apply in_istamp. split; [reflexivity|]. do 3 (apply in_or_app; right). left. reflexivity. }
      assert (OS : forall t' u fs', t' <> t -> nth_error (i_tasks s) t' = Some (ISusp (WReq u) fs') -> (u < u0)%nat /\ exists p q h n0, nth_error (n_tasks (i_net s2)) u = Some (mkNT (NReq h 3000) p) /\ (forall r, p <> NDone r) /\ In (n0, OAsk t' u q) tr /\ top fs' q h).
      { intros t' u fs' N Y. destruct (l_susp _ _ L t' u fs' Y) as (p & q' & h' & n0 & S1 & S2 & S3 & S4). split; [apply nth_lt in S1; lia|].
        destruct (K1 u _ p S1 S2) as (p' & P1 & P2); [intros f' Q'; apply N; exact (l_uniq _ _ L _ _ _ _ _ Y Q')|].
        destruct (net_keep _ _ _ _ u _ p' E3 P1 P2) as (p2 & P3 & P4); [intros r [J|[]]; discriminate|]. exists p2, q', h', n0. auto. }
      constructor; cbn [i_net i_tasks].
      * destruct X1 as [es1 X1]. exists (es1 ++ [NEvCall (NReq h 3000)]).
        replace (nets _) with ((nets tr ++ nstamp T osn) ++ nstamp (n_now n) [NCall u0 (NReq h 3000)]); [econstructor; eassumption|].
        rewrite !app_assoc. rewrite <- !app_assoc. rewrite nets_app, !stamp_app, !nets_app, nets_map. rewrite (nets_plain T hd) by exact HP. rewrite (nets_plain T os0) by (eapply forall_plain; exact E2).
        cbn. rewrite NT. reflexivity.
      * intros t' u fs' Q. destruct (put_at _ _ _ _ _ Q TL) as [[-> Y]|[N Y]].
        -- injection Y as -> ->. destruct YS as (p & P1 & P2). exists p, q, h, T. auto.
        -- destruct (OS t' u fs' N Y) as (_ & p & q' & h' & n0 & P1 & P2 & P3 & P4). exists p, q', h', n0. split; [exact P1|]. split; [exact P2|]. split; [apply in_or_app; auto|exact P4].
      * intros t' fs' Q. destruct (put_at _ _ _ _ _ Q TL) as [[-> Y]|[N Y]]; [discriminate|exact (l_env _ _ L _ _ Y)].
      * intros t1 t2 u f1 f2 Q1 Q2. destruct (put_at _ _ _ _ _ Q1 TL) as [[-> Y]|[N1' Y1']]; destruct (put_at _ _ _ _ _ Q2 TL) as [[-> Y']|[N2' Y2']]; auto.
        -- injection Y as -> ->. destruct (OS t2 _ f2 N2' Y2'). lia.
        -- injection Y' as -> ->. destruct (OS t1 _ f1 N1' Y1'). lia.
        -- exact (l_uniq _ _ L _ _ _ _ _ Y1' Y2').
      * intros n0 t' u q' J. rewrite LN3. apply in_app_or in J as [J|J].
        -- cbn [fin] in OLD. rewrite app_nil_r in OLD. destruct (OLD _ _ _ _ J) as [A B]. split; [lia|]. destruct B as [(fs' & h' & B0 & B1 & B2)|B]; [left; exists fs', h'; split; [apply other_put; assumption|exact B2]|right; exact B].
        -- apply in_istamp in J as [_ J]. apply in_app_or in J as [J|J]; [apply in_map_iff in J as (? & ? & _); discriminate|].
           apply in_app_or in J as [J|J]; [rewrite Forall_forall in HP; destruct (HP _ J)|]. apply in_app_or in J as [J|[J|[J|[]]]]; [rewrite Forall_forall in E2; destruct (E2 _ J)| |discriminate].
           injection J as <- <- <-. split; [lia|]. left. exists fs, h. split; [apply at_put; exact TL|exact E5].
Qed.
Lemma linked_exec ids cls es s tr : iexec (istate0 ids cls) es s tr -> linked s tr.
Proof.
  induction 1 as [|es s tr e s' os X IH ST]; [|eapply linked_step; eassumption].
  constructor; cbn; try (intros [|?]; discriminate); try (intros ? ? ? ? []). exists []. constructor.
Qed.
