(** A message the gateway announces is handled once, reaches the object of its end point and the request that waits for it. *)
From Coq Require Import String ZArith List Bool Lia Permutation.
From Verif Require Import Py Schema Registry Codec Waiter Conn SpecConn ConnLemmas ConnCut.
From Verif Require Import Gateway SpecGateway NodeSendM NodeReq SpecNodeReq NodeReqProofs NodeM SystemM SpecSystem SystemProofs SystemAnswer.
From Verif Require NodeLive AppM SpecApp SpecLoad AppProofs AppLoad AppRoute.
Import ListNotations.
Open Scope list_scope.
Open Scope string_scope.
Open Scope list_scope.
Open Scope Z_scope.

(** ** exactly once *)
Lemma announced_app a b : announced (a ++ b) = announced a ++ announced b. Proof. apply flat_map_app. Qed.
Lemma begun_app a b : begun (a ++ b) = begun a ++ begun b. Proof. apply flat_map_app. Qed.
Definition coords (x : mail) : Z * option Z * val * val := (l_node x, key_of (l_ep x), l_cmd x, l_flags x).
Lemma announced_gw n os : announced (ystamp n (map YG os)) = map coords (mails os).
Proof. induction os as [|o os IH]; [reflexivity|]. cbn. destruct o; try exact IH. cbn. f_equal. exact IH. Qed.
Definition no_told (o : yobs) : Prop := match o with YG (GTold _ _ _ _ _) => False | _ => True end.
Definition no_begin (o : yobs) : Prop := match o with YA (AppM.OCalled _ (AppM.AMessage _ _ _ _)) => False | _ => True end.
Lemma announced_none n os : Forall no_told os -> announced (ystamp n os) = [].
Proof. induction 1 as [|o os O _ IH]; [reflexivity|]. cbn. destruct o as [[]| | |]; try exact IH. destruct O. Qed.
Lemma begun_none n os : Forall no_begin os -> begun (ystamp n os) = [].
Proof. induction 1 as [|o os O _ IH]; [reflexivity|]. cbn. destruct o as [|[? []| | | | | | |]| |]; try exact IH. destruct O. Qed.
Lemma nodes_told os : at_nodes os -> Forall no_told os. Proof. apply Forall_impl. intros []; tauto. Qed.
Lemma nodes_begin os : at_nodes os -> Forall no_begin os. Proof. apply Forall_impl. intros []; tauto. Qed.
Lemma gw_begin os : Forall no_begin (map YG os). Proof. apply Forall_forall. intros x J. apply in_map_iff in J as (? & <- & _). exact I. Qed.
Lemma app_told os : Forall no_told (map YA os). Proof. apply Forall_forall. intros x J. apply in_map_iff in J as (? & <- & _). exact I. Qed.
Lemma drop_perm {A} (x : A) l : forall k, nth_error l k = Some x -> Permutation l (x :: drop k l).
Proof.
  induction l as [|y l IH]; intros [|k] N; try discriminate; [injection N as ->; apply Permutation_refl|].
  cbn [drop]. eapply Permutation_trans; [apply perm_skip; exact (IH k N)|apply perm_swap].
Qed.
(** the application's observations of a step that is no call of messageReceived *)
Lemma mine_begin t os : Forall (AppProofs.mine t) os -> Forall no_begin (map YA os).
Proof. intros F. apply Forall_forall. intros x J. apply in_map_iff in J as (o & <- & J). rewrite Forall_forall in F. specialize (F _ J). destruct o; try exact I. destruct F. Qed.
Lemma by_call me t c d d' os p : AppM.astart me t c d = (d', os, p) -> Forall (AppProofs.mine t) os.
Proof. intros E. pose proof (AppProofs.by_begin me t c d) as B. rewrite E in B. exact B. Qed.
Lemma app_begin s e s' os : AppM.astep s e = Some (s', os) -> match e with AppM.ECall (AppM.AMessage n ep c f) => exists os1, os = AppM.OCalled (length (AppM.a_tasks s)) (AppM.AMessage n ep c f) :: os1 /\ Forall no_begin (map YA os1) | _ => Forall no_begin (map YA os) end.
Proof.
  intros E. apply AppProofs.astep_case in E. destruct E as [z|c d os p E|t c p a d os p' N E|t c p x N NE].
  - constructor.
  - pose proof (mine_begin _ _ (by_call _ _ _ _ _ _ _ E)) as M. destruct c; try (constructor; [exact I|exact M]). eauto.
  - pose proof (AppProofs.by_resume (AppM.a_me s) t p a (AppProofs.tabs_of s) _ E) as B. exact (mine_begin _ _ B).
  - constructor; [exact I|constructor].
Qed.

Section System.
Variable ord : list Z -> list Z.
(** a step announces what it adds to the pending messages and takes from them what it begins to handle *)
Lemma step_mail s e s' os : ystep ord s e = Some (s', os) ->
  (exists l, announced (ystamp (y_now s) os) = map coords l /\ begun (ystamp (y_now s) os) = [] /\ y_mail s' = y_mail s ++ l) \/
  exists k x a aos nos, e = YHand k /\ nth_error (y_mail s) k = Some x /\ AppM.astep (y_a s) (AppM.ECall (AppM.AMessage (l_node x) (ep_key (l_ep x)) (l_cmd x) (l_flags x))) = Some (a, aos) /\
    handle_all aos (set_mail (drop k (y_mail s)) (set_a a s)) = (s', nos) /\ os = map YA aos ++ nos.
Proof.
  intros E. assert (GG : forall e0 s0 s1 o1 n, gw_go ord e0 s0 = Some (s1, o1) -> exists l, announced (ystamp n o1) = map coords l /\ begun (ystamp n o1) = [] /\ y_mail s1 = y_mail s0 ++ l).
  { intros e0 s0 s1 o1 n G. destruct (gw_go_spec _ n _ _ _ _ G) as (gos & nos & _ & -> & A & _ & M & _). exists (mails gos). rewrite ystamp_app, announced_app, begun_app, announced_gw, (announced_none _ _ (nodes_told _ A)), (begun_none _ _ (nodes_begin _ A)), (begun_none _ _ (gw_begin _)), app_nil_r. auto. }
  assert (NN : forall j e0 s0 s1 o1, plain e0 -> node_go j e0 s0 = (s1, o1) -> at_nodes o1 /\ y_mail s1 = y_mail s0).
  { intros j e0 s0 s1 o1 P G. destruct (plain_go _ _ _ _ _ P G) as (A & _). assert (RO : runs_on e0) by (destruct e0; try destruct P; exact I). assert (NA : forall dt, e0 <> NEvAdvance dt) by (intros dt ->; destruct P).
    destruct (node_go_spec _ _ _ _ _ 0 RO NA G) as (_ & _ & M & _). auto. }
  assert (QU : forall n l, at_nodes l -> y_mail s' = y_mail s -> exists l0, announced (ystamp n l) = map coords l0 /\ begun (ystamp n l) = [] /\ y_mail s' = y_mail s ++ l0).
  { intros n l A M. exists []. rewrite (announced_none _ _ (nodes_told _ A)), (begun_none _ _ (nodes_begin _ A)), app_nil_r. auto. }
  destruct e as [dt|e|e|k|j c cmd stmo|j e]; cbn [ystep] in E.
  - left. destruct (gstep ord (y_g s) (GAdvance dt)) as [[g go]|]; [|discriminate]. injection E as <- <-. exists []. cbn. rewrite app_nil_r. auto.
  - left. assert (Q : gw_go ord e s = Some (s', os)) by (destruct e; try discriminate E; exact E). exact (GG _ _ _ _ _ Q).
  - left. assert (Q : exists a aos, AppM.astep (y_a s) e = Some (a, aos) /\ s' = set_a a s /\ os = map YA aos /\ forall n ep c f, e <> AppM.ECall (AppM.AMessage n ep c f)).
    { destruct e as [c|x r|z]; [destruct c; try discriminate E| |]; match type of E with match ?x with _ => _ end = _ => destruct x as [[a aos]|] eqn:G; [|discriminate E] end; injection E as <- <-; exists a, aos; (split; [first [exact G|reflexivity]|]); (split; [reflexivity|]); (split; [reflexivity|]); discriminate. }
    destruct Q as (a & aos & G & -> & -> & NM). exists []. rewrite (announced_none _ _ (app_told _)). cbn [map y_mail set_a]. rewrite app_nil_r. split; [reflexivity|]. split; [|reflexivity]. apply begun_none.
    pose proof (app_begin _ _ _ _ G) as B. destruct e as [c|x r|z]; try exact B. destruct c; try exact B. destruct (NM _ _ _ _ eq_refl).
  - right. destruct (nth_error (y_mail s) k) as [x|] eqn:K; [|discriminate]. destruct (AppM.astep _ _) as [[a aos]|] eqn:G; [|discriminate]. destruct (handle_all aos _) as [s1 nos] eqn:H. injection E as <- <-. exists k, x, a, aos, nos. auto.
  - left. destruct (nth_error (AppM.a_objs (y_a s)) j) as [o|]; [|discriminate]. destruct (node_go j (NEvCall c) s) as [s1 o1] eqn:N1. destruct (NN j (NEvCall c) s s1 o1 I N1) as [A M]. destruct c as [h tmo|h tmo].
    + match type of E with match ?x with _ => _ end = _ => destruct x as [[s2 o2]|] eqn:G; [|discriminate E] end. injection E as <- <-. destruct (GG _ _ _ _ (y_now s) G) as (l & L1 & L2 & L3). exists l.
      rewrite ystamp_app, announced_app, begun_app, (announced_none _ _ (nodes_told _ A)), (begun_none _ _ (nodes_begin _ A)). cbn [y_mail add_send] in L3. rewrite <- M. auto.
    + injection E as <- <-. exact (QU _ _ A M).
  - left. assert (P : plain e /\ node_go j e s = (s', os)) by (destruct e; try discriminate; (split; [exact I|]); match type of E with match ?x with _ => _ end = _ => destruct x; [|discriminate] end; congruence).
    destruct P as [P N1]. destruct (NN _ _ _ _ _ P N1) as [A M]. exact (QU _ _ A M).
Qed.
Theorem once es s tr : yexec ord sys0 es s tr -> Permutation (announced tr) (begun tr ++ waiting s).
Proof.
  induction 1 as [|es s tr e s' os X IH ST]; [constructor|]. rewrite announced_app, begun_app. destruct (step_mail _ _ _ _ ST) as [(l & A & B & M)|(k & x & a & aos & nos & -> & K & G & H & ->)].
  - rewrite A, B, app_nil_r. unfold waiting. rewrite M, map_app, app_assoc. apply Permutation_app_tail. exact IH.
  - destruct (handle_spec (y_now s) _ _ _ _ H) as (_ & _ & M & _ & _ & N & _). cbn [y_mail set_mail] in M. pose proof (app_begin _ _ _ _ G) as (os1 & -> & B).
    rewrite ystamp_app, announced_app, begun_app, (announced_none _ _ (app_told _)), (announced_none _ _ (nodes_told _ N)), (begun_none _ _ (nodes_begin _ N)). cbn [map ystamp]. change (map (pair (y_now s)) (map YA os1)) with (ystamp (y_now s) (map YA os1)).
    cbn [begun flat_map]. fold (begun (ystamp (y_now s) (map YA os1))). rewrite (begun_none _ _ B). cbn [List.app]. rewrite !app_nil_r. eapply Permutation_trans; [exact IH|]. rewrite <- app_assoc. apply Permutation_app_head.
    unfold waiting. rewrite M. exact (Permutation_map _ (drop_perm _ _ _ K)).
Qed.

(** ** to the object of the end point *)
Theorem given es s tr : yexec ord sys0 es s tr -> forall a k t n e c f b i m cl d, tr = a ++ (k, YA (AppM.OCalled t (AppM.AMessage n (Some e) c f))) :: b -> entered n e i a -> holds c m -> m = VObj cl d ->
  exists r b', b = (k, YA (AppM.OHandle t i c f)) :: (k, YN i (NRecv m r)) :: b'.
Proof.
  induction 1 as [|es s tr e0 s' os X IH ST]; [intros [|? ?]; discriminate|]. intros a k t n e c f b i m cl d E EN HO MO.
  destruct (app_cut _ _ _ _ _ E) as [(b0 & E1 & ->)|(a0 & -> & E1)].
  - destruct (IH _ _ _ _ _ _ _ _ _ _ _ _ E1 EN HO MO) as (r & b' & ->). exists r, (b' ++ ystamp (y_now s) os). reflexivity.
  - assert (J : In (n, Some e, c, f) (begun (ystamp (y_now s) os))) by (rewrite E1, begun_app; apply in_or_app; right; left; reflexivity).
    destruct (step_mail _ _ _ _ ST) as [(l & _ & B & _)|(kk & x & aa & aos & nos & -> & K & G & H & ->)]; [rewrite B in J; destruct J|]. clear J.
    pose proof (app_begin _ _ _ _ G) as (os1 & -> & B). destruct (AppRoute.call_step _ _ _ _ G) as (dd & os2 & p & AS & EQ & _). injection EQ as ->.
    destruct (handle_spec (y_now s) _ _ _ _ H) as (_ & _ & _ & _ & _ & N & _).
    assert (REST : Forall no_begin (map YA os2 ++ nos)) by (apply Forall_app; split; [exact B|exact (nodes_begin _ N)]).
    cbn [map List.app ystamp] in E1. destruct a0 as [|y a0].
    2:{ exfalso. injection E1 as _ E1. assert (J : In (k, YA (AppM.OCalled t (AppM.AMessage n (Some e) c f))) (ystamp (y_now s) (map YA os2 ++ nos))) by (unfold ystamp; rewrite E1; apply in_or_app; right; left; reflexivity).
        apply in_ystamp in J as [_ J]. rewrite Forall_forall in REST. exact (REST _ J). }
    cbn [List.app] in E1. injection E1 as <- <- <- EK <- <- EB. rewrite app_nil_r in EN. unfold entered in EN. destruct (v_app _ _ _ (yexec_inv _ _ _ _ X)) as (aes & XA).
    destruct (AppLoad.follows_exec _ _ _ _ XA) as [_ FO]. specialize (FO (l_node x, e)). change (SpecApp.entry AppM.app0 (l_node x, e)) with (@None nat) in FO. rewrite EN in FO. unfold SpecApp.entry in FO.
    cbn [AppM.astart] in AS. unfold AppM.start_message in AS. rewrite EK in AS. cbn [fst AppProofs.tabs_of] in AS. change (SpecApp.entry (y_a s) (l_node x, e)) with (dget AppM.key_eqb (l_node x, e) (AppM.a_tab (y_a s))) in FO. rewrite FO in AS. injection AS as <- <- <-.
    cbn [handle_all] in H. assert (U : unwrap (l_cmd x) = VObj cl d). { unfold holds in HO. unfold unwrap. change (is_sup (l_cmd x)) with (is_msg m_Supervision_Get (l_cmd x)). destruct (is_msg m_Supervision_Get (l_cmd x)); congruence. }
    rewrite U in H. unfold node_go in H. cbn [nstep] in H. rewrite MO. destruct (message_received (VObj cl d) _) as [w r]. injection H as _ <-. exists r, []. rewrite <- EB. reflexivity.
Qed.
End System.

(** ** to the request that waits for it *)
Lemma sent_first es s tr : nexec nstate0 es s tr -> forall a T u r b, tr = a ++ (T, NSent u r) :: b -> forall T' r', ~ In (T', NSent u r') a.
Proof.
  induction 1 as [|es s tr e s' os X IH ST]; [intros [|? ?]; discriminate|]. intros a T u r b E T' r' J.
  destruct (app_cut _ _ _ _ _ E) as [(c & E1 & _)|(c & -> & E1)]; [exact (IH _ _ _ _ _ E1 _ _ J)|].
  assert (JO : In (NSent u r) os) by (assert (In (T, NSent u r) (nstamp (n_now s) os)) as H by (rewrite E1; apply in_or_app; right; left; reflexivity); apply in_stamp in H as [_ H]; exact H).
  destruct (step_tasks _ _ _ _ ST) as (_ & _ & _ & _ & _ & OS & _). rewrite (OS _ _ JO) in ST.
  assert (Q : (exists h tmo, nth_error (n_tasks s) u = Some (mkNT (NReq h tmo) NSending)) /\ exists o, os = NSent u r :: o /\ forall x, ~ In (NSent u x) o).
  { cbn [nstep] in ST. destruct (nth_error (n_tasks s) u) as [[[h tmo|h tmo] []]|]; try discriminate. split; [eauto|]. destruct r as [[]|x]; injection ST as <- <-; eexists; (split; [reflexivity|]); intros x0 Q; [destruct Q|destruct Q as [Q|[]]; discriminate|destruct Q as [Q|[]]; discriminate]. }
  destruct Q as [(h & tmo & N) (o & -> & NO)]. pose proof (NodeLive.stage_exec _ _ _ X _ _ N) as (_ & NS & _). cbn [nstamp map] in E1. apply in_app_or in J as [J|J]; [exact (NS _ _ J)|].
  destruct c as [|y c]; [destruct J|]. injection E1 as _ E1. destruct J as [J|J].
  - assert (JJ : In (T, NSent u r) (nstamp (n_now s) o)) by (unfold nstamp; rewrite E1; apply in_or_app; right; left; reflexivity). apply in_stamp in JJ as [_ JJ]. exact (NO _ JJ).
  - assert (JJ : In (T', NSent u r') (nstamp (n_now s) o)) by (unfold nstamp; rewrite E1; apply in_or_app; left; exact J). apply in_stamp in JJ as [_ JJ]. exact (NO _ JJ).
Qed.
Lemma none_cancels es s tr : nexec nstate0 es s tr -> Forall runs_on es -> forall t x h f, nth_error (n_tasks s) t = Some x -> n_pc x <> NCancel h f.
Proof.
  induction 1 as [|es s tr e s' os X IH ST]; intros RO t x h f N P; [destruct t; discriminate|]. apply Forall_app in RO as [RO RE]. apply Forall_inv in RE.
  destruct (nth_error (n_tasks s) t) as [y|] eqn:Y.
  - destruct (NodeLive.step_move _ _ _ _ _ _ ST Y) as (x' & N' & _ & M). rewrite N in N'. injection N' as <-. rewrite P in M. inversion M; subst; [|destruct RE]. eapply (IH RO t y h f Y). congruence.
  - destruct (NodeLive.step_new _ _ _ _ _ _ ST Y N) as (c & _ & _ & _ & _ & Q). destruct c; [congruence|]. destruct Q as (f' & ph & Q). congruence.
Qed.
Lemma uncancelled es s tr : nexec nstate0 es s tr -> Forall runs_on es -> forall u h tmo n T n', 0 < tmo -> alone u h tr -> In (n, NCall u (NReq h tmo)) tr -> In (T, NSent u (Ok true)) tr -> ~ In (n', NRet u (RExc ECancelled)) tr.
Proof.
  induction 1 as [|es s tr e s' os X IH ST]; intros RO u h tmo n T n' TM AL C S R; [destruct R|]. apply Forall_app in RO as [RO RE]. apply Forall_inv in RE.
  assert (AL' : alone u h tr) by (intros k t' c J; apply (AL k t' c); apply in_or_app; auto).
  assert (TK : exists x, nth_error (n_tasks s) u = Some x).
  { apply in_app_or in R as [R|R]; [destruct (ret_done _ _ _ X _ _ _ R) as (x & A & _); eauto|]. apply in_stamp in R as [_ R]. destruct (nth_error (n_tasks s) u) as [x|] eqn:Y; [eauto|].
    destruct (step_tasks _ _ _ _ ST) as (_ & _ & _ & _ & OR & _). destruct (OR _ _ R) as (y & Y' & _). destruct (NodeLive.step_new _ _ _ _ _ _ ST Y Y') as (c & _ & -> & _). destruct R as [R|[]]. discriminate. }
  destruct TK as (x & TK). assert (C' : In (n, NCall u (NReq h tmo)) tr).
  { apply in_app_or in C as [C|C]; [exact C|]. apply in_stamp in C as [_ C]. destruct (step_tasks _ _ _ _ ST) as (_ & _ & _ & OC & _). destruct (OC _ _ C) as [U _]. assert (L : nth_error (n_tasks s) u <> None) by congruence. apply nth_error_Some in L. lia. }
  destruct (call_task _ _ _ X _ _ _ C') as (x' & TK' & XC). rewrite TK in TK'. injection TK' as <-.
  destruct (NodeLive.step_move _ _ _ _ _ _ ST TK) as (y & Y & _ & M). pose proof (NodeLive.stage_exec _ _ _ X _ _ TK) as SG.
  apply in_app_or in R as [R|R].
  - destruct (ret_done _ _ _ X _ _ _ R) as (x' & A & B). rewrite TK in A. injection A as <-.
    apply in_app_or in S as [S|S]; [exact (IH RO u h tmo n T n' TM AL' C' S R)|]. apply in_stamp in S as [_ S]. rewrite B in M. inversion M; subst. match goal with H : forall r, ~ In (NSent u r) os |- _ => exact (H _ S) end.
  - apply in_stamp in R as [_ R]. destruct (inv_exec u h tmo es s tr TM X AL') as [IV _]. unfold inv in IV. rewrite TK in IV. specialize (IV XC).
    inversion M as [e0 p0 o0 O NS NR|h0 tmo0 f0 ph0 Q|r r' N|h0 f0 dl|h0 f0 dl|h0 f0 dl ph r|h0 f0 r|r|h0 f0 dl ph]; subst.
    + exact (NR _ R).
    + destruct R as [R|[]]. discriminate.
    + rewrite <- H0 in SG. destruct SG as (_ & NS & _). apply in_app_or in S as [S|S]; [exact (NS _ _ S)|]. apply in_stamp in S as [_ [S|[S|[]]]]; [injection S as S; exact (N S)|discriminate].
    + destruct R.
    + destruct R.
    + rewrite <- H0 in IV. destruct IV as (_ & T0 & _ & -> & _ & _ & W). destruct R as [R|[]]. injection R as ->. cbn [nstep] in ST. rewrite TK in ST. destruct x as [cc pp]. cbn in H0. subst pp. unfold n_resume in ST.
      assert (NF : forall r0 s0, Some (n_finish u r0 s0) = Some (s', [NRet u (RExc ECancelled)]) -> r0 = RExc ECancelled) by (intros r0 s0 Q; injection Q as _ Q; exact Q).
      destruct (hits h (since_sent u tr)) as [|[[a m] q] l].
      * destruct ph; try (specialize (W ltac:(discriminate)) as [W _]; rewrite W in ST; discriminate ST). destruct (nth_error _ f0) as [[]|]; apply NF in ST; discriminate.
      * destruct W as [[W P]|[_ ->]]; [rewrite W in ST; destruct ph; try (apply NF in ST; discriminate)|]. destruct (nth_error _ f0) as [[]|]; apply NF in ST; discriminate.
    + symmetry in H0. exact (none_cancels _ _ _ X RO _ _ _ _ TK H0).
    + destruct RE.
    + destruct R.
Qed.
Section System2.
Variable ord : list Z -> list Z.
Theorem reaches es s tr a T i u b k t n e c f d0 m cl d h tmo kc kr r : yexec ord sys0 es s tr ->
  tr = (a ++ (T, YN i (NSent u (Ok true))) :: b) ++ (k, YA (AppM.OCalled t (AppM.AMessage n (Some e) c f))) :: d0 ->
  entered n e i (a ++ (T, YN i (NSent u (Ok true))) :: b) -> holds c m -> m = VObj cl d -> hid m = h -> 0 < tmo -> k < T + tmo ->
  In (kc, YN i (NCall u (NReq h tmo))) tr -> alone u h (on_node i tr) -> (forall k' m' r', In (k', YN i (NRecv m' r')) b -> hid m' <> h) ->
  In (kr, YN i (NRet u r)) tr -> r = RMsg m.
Proof.
  intros X E EN HO MO HM TM KT C AL NO R. destruct (given _ _ _ _ X _ _ _ _ _ _ _ _ _ _ _ _ E EN HO MO) as (r0 & b' & ->).
  destruct (v_node _ _ _ (yexec_inv _ _ _ _ X) i) as (nes & XN & _ & RO).
  assert (EQ : on_node i tr = on_node i a ++ (T, NSent u (Ok true)) :: on_node i b ++ (k, NRecv m r0) :: on_node i b').
  { rewrite E, !node_app. cbn. rewrite Nat.eqb_refl. cbn. rewrite <- app_assoc. cbn. reflexivity. }
  apply in_node in C. apply in_node in R. assert (S : In (T, NSent u (Ok true)) (on_node i tr)) by (rewrite EQ; apply in_or_app; right; left; reflexivity).
  assert (NC : r <> RExc ECancelled) by (intros ->; exact (uncancelled _ _ _ XN RO u h tmo _ _ _ TM AL C S R)).
  pose proof (request_answer _ _ _ _ _ _ _ _ _ _ TM XN AL C S R NC) as RA.
  assert (SS : since_sent u (on_node i tr) = on_node i b ++ (k, NRecv m r0) :: on_node i b').
  { rewrite EQ, since_sent_app. assert (SF : sent_ok u (on_node i a) = false).
    { destruct (sent_ok u (on_node i a)) eqn:Q; [|reflexivity]. exfalso. unfold sent_ok in Q. apply existsb_exists in Q as ([k0 o] & J & Q). destruct o as [|u' [[]|]| |]; try discriminate. cbn in Q. apply Nat.eqb_eq in Q. subst u'. exact (sent_first _ _ _ XN _ _ _ _ _ EQ _ _ J). }
    rewrite SF. cbn. rewrite Nat.eqb_refl. reflexivity. }
  assert (HH : exists l, hits h (since_sent u (on_node i tr)) = (k, m, r0) :: l).
  { rewrite SS. unfold hits. rewrite flat_map_app. assert (Z : forall x, (forall k' m' r', In (k', NRecv m' r') x -> hid m' <> h) -> flat_map (fun e0 : Z * nobs => match e0 with (n0, NRecv m0 r1) => if hid m0 =? h then [(n0, m0, r1)] else [] | _ => [] end) x = []).
    { induction x as [|[k0 o] x IH]; intros NX; [reflexivity|]. cbn [flat_map]. rewrite IH by (intros k' m' r' J; apply (NX k' m' r'); right; exact J). destruct o as [| |m0 r1|]; try reflexivity. destruct (Z.eqb_spec (hid m0) h) as [HE|]; [|reflexivity]. destruct (NX k0 m0 r1 (or_introl eq_refl) HE). }
    rewrite Z by (intros k' m' r' J; apply in_node in J; exact (NO _ _ _ J)). cbn [List.app flat_map]. rewrite HM, Z.eqb_refl. eexists. reflexivity. }
  destruct HH as (l & HH). rewrite HH in RA. destruct RA as [RA|[_ RA]]; [exact RA|lia].
Qed.
End System2.
