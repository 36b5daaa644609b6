(** Messages and status reports passing through the application (C71, C79). *)
From Coq Require Import String ZArith List Bool Lia.
From Verif Require Import Py Schema Registry Codec Waiter Conn NodeM AppM SpecApp AppProofs AppUpdate.
Import ListNotations.
Open Scope list_scope.
Open Scope string_scope.
Open Scope list_scope.
Open Scope Z_scope.

(** what a task does when it gets these answers one after the other *)
Inductive walk (t : nat) : apc -> list (res answer) -> list aobs -> apc -> Prop :=
| W_nil p : walk t p [] [] p
| W_snoc p l os p1 a os1 p2 : walk t p l os p1 -> (forall me d, aresume me t p1 a d = Some (d, os1, p2)) -> walk t p (l ++ [Ok a]) (os ++ os1) p2
| W_err p l os p1 e : walk t p l os p1 -> (forall r, p1 <> PEnd r) -> walk t p (l ++ [Err e]) (os ++ [ODone t (Err e)]) (PEnd (Err e)).
Definition mtask (c : acall) (p : apc) : Prop := changes c = false /\ fits c p = true.
Lemma mresume me t c p a d g : mtask c p -> aresume me t p a d = Some g -> fst (fst g) = d /\ forall me' d', aresume me' t p a d' = Some (d', snd (fst g), snd g).
Proof.
  intros [C F] E. split; [exact (message_keeps _ _ _ _ _ _ _ F C E)|]. intros me' d'.
  destruct c; try discriminate C; destruct p; try discriminate F; try (cbn in F; destruct k; discriminate F); destruct a; try discriminate E; cbn [aresume] in *; try (injection E as <-; reflexivity).
  destruct (int_is _ 6); [destruct (int_is _ 0)|]; injection E as <-; reflexivity.
Qed.
Lemma walk_exec s0 c p t es s b : aexec s0 es s b -> nth_error (a_tasks s0) t = Some (mkAT c p) -> mtask c p ->
  exists p', nth_error (a_tasks s) t = Some (mkAT c p') /\ mtask c p' /\ walk t p (results t es) (own t b) p'.
Proof.
  induction 1 as [|es s b e s' os X IH S]; intros N M; [exists p; split; [exact N|]; split; [exact M|constructor]|].
  destruct (IH N M) as (p1 & N1 & M1 & W). rewrite own_app. unfold results. rewrite flat_map_app. fold (results t es). apply astep_case in S. destruct S as [z|c' d os q E|u c' q a d os q' N' E|u c' q x N' NE]; cbn [flat_map a_tasks].
  - rewrite !app_nil_r. exists p1. auto.
  - rewrite nth_snoc'. destruct (Nat.eqb_spec t (length (a_tasks s))) as [->|NT]; [exfalso; assert (Q : nth_error (a_tasks s) (length (a_tasks s)) = None) by (apply nth_error_None; lia); congruence|].
    pose proof (by_begin (a_me s) (length (a_tasks s)) c' (tabs_of s)) as BM. rewrite E in BM. unfold by_t in BM. cbn in BM. rewrite own_cons. cbn [who]. destruct (Nat.eqb_spec (length (a_tasks s)) t); [congruence|]. rewrite (own_other t _ os BM), !app_nil_r by congruence. exists p1. auto.
  - pose proof (by_resume _ _ _ _ _ _ E) as BM. unfold by_t in BM. cbn in BM. rewrite (nth_upd' _ _ _ _ N'). destruct (Nat.eqb_spec t u) as [->|NU].
    + rewrite N1 in N'. injection N' as <- <-. rewrite Nat.eqb_refl. cbn [List.app]. destruct (mresume _ _ _ _ _ _ _ M1 E) as [D R]. cbn in D, R. subst d. exists q'. split; [reflexivity|]. split; [split; [apply M1|exact (gfits_resume _ _ _ _ _ _ _ (proj2 M1) E)]|].
      rewrite (own_mine u os BM). econstructor; eassumption.
    + destruct (Nat.eqb_spec u t); [congruence|]. rewrite (own_other t u os BM), !app_nil_r by congruence. exists p1. auto.
  - rewrite (nth_upd' _ _ _ _ N'). destruct (Nat.eqb_spec t u) as [->|NU].
    + rewrite N1 in N'. injection N' as <- <-. rewrite own_cons. cbn [who]. rewrite Nat.eqb_refl. cbn [List.app]. exists (PEnd (Err x)). split; [reflexivity|]. split; [split; [apply M1|reflexivity]|]. econstructor; eassumption.
    + rewrite own_cons. cbn [who]. destruct (Nat.eqb_spec u t); [congruence|]. rewrite !app_nil_r. exists p1. auto.
Qed.
Lemma walk_cons t p l os p' : walk t p l os p' ->
  (l = [] /\ os = [] /\ p' = p) \/
  (exists a l' os1 os2 p1, l = Ok a :: l' /\ os = os1 ++ os2 /\ (forall me d, aresume me t p a d = Some (d, os1, p1)) /\ walk t p1 l' os2 p') \/
  (exists e, l = [Err e] /\ os = [ODone t (Err e)] /\ p' = PEnd (Err e) /\ forall r, p <> PEnd r).
Proof.
  induction 1 as [p|p l os p1 a os1 p2 W IH R|p l os p1 e W IH R]; [left; auto| |].
  - right. destruct IH as [(-> & -> & ->)|[(a' & l' & o1 & o2 & q & -> & -> & R' & W')|(e & -> & -> & -> & NE)]].
    + left. exists a, [], os1, [], p2. split; [reflexivity|]. split; [rewrite app_nil_r; reflexivity|]. split; [exact R|constructor].
    + left. exists a', (l' ++ [Ok a]), o1, (o2 ++ os1), q. split; [reflexivity|]. split; [rewrite app_assoc; reflexivity|]. split; [exact R'|]. econstructor; eassumption.
    + specialize (R 0 ([], [])). rewrite ended_stays in R. discriminate.
  - right. destruct IH as [(-> & -> & ->)|[(a' & l' & o1 & o2 & q & -> & -> & R' & W')|(e' & -> & -> & -> & NE)]].
    + right. exists e. auto.
    + left. exists a', (l' ++ [Err e]), o1, (o2 ++ [ODone t (Err e)]), q. split; [reflexivity|]. split; [rewrite app_assoc; reflexivity|]. split; [exact R'|]. econstructor; eassumption.
    + destruct (R (Err e')); reflexivity.
Qed.
Lemma walk_end t r l os p' : walk t (PEnd r) l os p' -> l = [] /\ os = [] /\ p' = PEnd r.
Proof.
  intros W. apply walk_cons in W as [W|[(a & l' & o1 & o2 & q & -> & -> & R & _)|(e & _ & _ & _ & N)]]; [exact W| |destruct (N r); reflexivity].
  specialize (R 0 ([], [])). rewrite ended_stays in R. discriminate.
Qed.
(** one more answer ends the task *)
Lemma walk_last t p l os p' f : (forall me a d, aresume me t p a d = match f a with Some v => Some (stop t (Ok v) d) | None => None end) -> (forall r, p <> PEnd r) -> walk t p l os p' ->
  (l = [] /\ os = [] /\ p' = p) \/ (exists a v, l = [Ok a] /\ f a = Some v /\ os = [ODone t (Ok v)] /\ p' = PEnd (Ok v)) \/ (exists e, l = [Err e] /\ os = [ODone t (Err e)] /\ p' = PEnd (Err e)).
Proof.
  intros F NE W. apply walk_cons in W as [W|[(a & l' & o1 & o2 & q & -> & -> & R & W)|(e & W1 & W2 & W3 & _)]]; [left; exact W| |right; right; exists e; auto].
  right. left. specialize (R 0 ([], [])). rewrite F in R. destruct (f a) as [v|] eqn:E; [|discriminate]. injection R as <- <-. apply walk_end in W as (-> & -> & ->). exists a, v. auto.
Qed.
Lemma call_step s c s2 os : astep s (ECall c) = Some (s2, os) -> exists d os1 p, astart (a_me s) (length (a_tasks s)) c (tabs_of s) = (d, os1, p) /\ os = OCalled (length (a_tasks s)) c :: os1 /\ nth_error (a_tasks s2) (length (a_tasks s)) = Some (mkAT c p) /\ fits c p = true.
Proof.
  intros S. pose proof (gfits_begin (a_me s) (length (a_tasks s)) c (tabs_of s)) as G. unfold gfits in G. apply astep_case in S. inversion S as [|c' d os1 p E E1 E2 E3| |]; subst. exists d, os1, p. split; [exact E|]. rewrite E in G. split; [reflexivity|]. split; [|exact G]. cbn [a_tasks]. rewrite nth_snoc', Nat.eqb_refl. reflexivity.
Qed.
Lemma deeds_own t tr : deeds t tr = own t tr. Proof. reflexivity. Qed.
Lemma call_deeds s c s2 os es s' b : changes c = false -> astep s (ECall c) = Some (s2, os) -> aexec s2 es s' b ->
  exists d os1 p p', astart (a_me s) (length (a_tasks s)) c (tabs_of s) = (d, os1, p) /\ deeds (length (a_tasks s)) (os ++ b) = OCalled (length (a_tasks s)) c :: os1 ++ own (length (a_tasks s)) b /\
    walk (length (a_tasks s)) p (results (length (a_tasks s)) es) (own (length (a_tasks s)) b) p'.
Proof.
  intros C S X. destruct (call_step _ _ _ _ S) as (d & os1 & p & E & -> & N & F). destruct (walk_exec _ _ _ _ _ _ _ X N (conj C F)) as (p' & _ & _ & W).
  exists d, os1, p, p'. split; [exact E|]. split; [|exact W]. rewrite deeds_own, own_app, own_cons. cbn [who]. rewrite Nat.eqb_refl. cbn [List.app]. f_equal. f_equal.
  pose proof (by_begin (a_me s) (length (a_tasks s)) c (tabs_of s)) as BM. rewrite E in BM. apply own_mine. exact BM.
Qed.
Ltac lastly H W F := eapply (walk_last _ _ _ _ _ F) in W; [|intros ? [] ?; reflexivity|discriminate];
  destruct W as [(H & -> & ->)|[(? & ? & H & ? & -> & ->)|(? & H & -> & ->)]].
Lemma routed es1 s1 a r ep m f s2 os es s b t : aexec app0 es1 s1 a -> astep s1 (ECall (AMessage r ep m f)) = Some (s2, os) -> aexec s2 es s b -> t = length (a_tasks s1) ->
  match (match ep with Some e => entry s1 (r, e) | None => None end) with
  | Some i =>
      (exists o e, nth_error (a_objs s1) i = Some o /\ ep = Some e /\ o_root o = r /\ o_ep o = e) /\
      deeds t (os ++ b) = OCalled t (AMessage r ep m f) :: OHandle t i m f ::
        match results t es with Ok (AHandled h) :: _ => [ODone t (Ok (RBool h))] | Err e :: _ => [ODone t (Err e)] | _ => [] end
  | None =>
      deeds t (os ++ b) = OCalled t (AMessage r ep m f) ::
        if r =? a_me s1 then OTell t (WMessage m) :: match results t es with Ok _ :: _ => [ODone t (Ok (RBool true))] | Err e :: _ => [ODone t (Err e)] | [] => [] end
        else [ODone t (Ok (RBool false))]
  end.
Proof.
  intros X S X2 ->. pose proof (wf_tab _ (wf_exec _ _ _ _ X wf0)) as T. destruct (call_deeds s1 (AMessage r ep m f) s2 os es s b eq_refl S X2) as (d & os1 & p & p' & E & -> & W). set (t := length (a_tasks s1)) in *.
  cbn [astart] in E. unfold start_message in E. change (dget key_eqb) with (fun k (d : list (key * nat)) => dget key_eqb k d) in E. unfold entry. cbn [fst tabs_of] in E.
  destruct (match ep with Some e => dget key_eqb (r, e) (a_tab s1) | None => None end) as [i|] eqn:L.
  - injection E as <- <- <-. split.
    + destruct ep as [e|]; [|discriminate]. apply kget_in in L. destruct (to_objs _ T _ _ L) as (o & N & K). exists o, e. split; [exact N|]. split; [reflexivity|]. injection K as K1 K2. auto.
    + cbn [List.app]. do 2 f_equal. lastly H W (fun a => match a with AHandled h => Some (RBool h) | _ => None end); rewrite H; try reflexivity. destruct x; try discriminate. injection H0 as <-. reflexivity.
  - destruct (r =? a_me s1); injection E as <- <- <-.
    + cbn [List.app]. do 2 f_equal. lastly H W (fun a => match a with ATold _ => Some (RBool true) | _ => None end); rewrite H; try reflexivity. destruct x; try discriminate. injection H0 as <-. reflexivity.
    + cbn [List.app]. apply walk_end in W as (_ & -> & _). reflexivity.
Qed.

(** ** status reports *)
Ltac peel J := cbn [In List.app] in J; repeat match type of J with _ \/ _ => destruct J as [J|J]; [try discriminate J|] end; try match type of J with False => destruct J end.
Lemma told_mine t os : told t os = told t (own t os). Proof. symmetry. apply told_own. Qed.
Lemma reports s1 m s2 os es s b t : astep s1 (ECall (AUnhandled m)) = Some (s2, os) -> aexec s2 es s b -> t = length (a_tasks s1) ->
  (exists rest, report_news m = told t (os ++ b) ++ rest) /\
  (forall v, In (ODone t (Ok v)) (os ++ b) -> told t (os ++ b) = report_news m /\ exists bs, v = RBool (report_handled m bs) /\ (told t (os ++ b) = [WMessage (getattr m "command")] -> In (Ok (ATold bs)) (results t es))).
Proof.
  intros S X2 ->. destruct (call_deeds s1 (AUnhandled m) s2 os es s b eq_refl S X2) as (d & os1 & p & p' & E & D & W). set (t := length (a_tasks s1)) in *.
  rewrite (told_mine t (os ++ b)), <- deeds_own. assert (IN : forall v, In (ODone t (Ok v)) (os ++ b) <-> In (ODone t (Ok v)) (deeds t (os ++ b))) by (intros v; apply (own_in t (ODone t (Ok v))); reflexivity).
  setoid_rewrite IN. clear IN. rewrite D. clear D. cbn [astart] in E. unfold start_unhandled in E. unfold report_news, report_handled.
  destruct (is_msg m_Zip_ZipPacket m) eqn:Z0; [|injection E as <- <- <-; apply walk_end in W as (_ & -> & _); split; [exists []; reflexivity|]; intros v J; destruct J as [J|[J|[]]]; [discriminate|]; injection J as <-; split; [reflexivity|]; exists []; split; [reflexivity|discriminate]].
  cbn zeta in *. set (c := getattr m "command") in *. destruct (is_msg m_NetworkManagementInclusion_NodeAddStatus c) eqn:Z1.
  { injection E as <- <- <-. cbn [told List.app]. rewrite Nat.eqb_refl. lastly H W (fun a => match a with ATold _ => Some (RBool true) | _ => None end); cbn [told List.app]; (split; [exists []; reflexivity|]); intros v J; peel J.
    injection J as <-. destruct x; try discriminate. injection H0 as <-. split; [reflexivity|]. exists []. split; [reflexivity|discriminate]. }
  destruct (is_msg m_NetworkManagementInclusion_NodeRemoveStatus c) eqn:Z2.
  { injection E as <- <- <-. cbn [told List.app]. rewrite Nat.eqb_refl. change has_value with int_is.
    apply walk_cons in W as [(_ & -> & _)|[(a & l' & o1 & o2 & q & HR & HO & R & W)|(e & _ & -> & _)]].
    - split; [eexists; reflexivity|]. intros v J. peel J.
    - specialize (R 0 ([], [])). destruct a; try discriminate R. cbn [aresume] in R. rewrite HO. clear HO HR. destruct (int_is (getattr c "status") 6) eqn:Z3; cbn [andb].
      + destruct (int_is (getattr c "nodeID") 0) eqn:Z4; injection R as <- <-.
        * cbn [told List.app]. rewrite Nat.eqb_refl. apply walk_cons in W as [(_ & -> & _)|[(a & l2 & o1 & o3 & q & HR & HO & R & W)|(e & _ & -> & _)]].
          -- split; [eexists; reflexivity|]. intros v J. peel J.
          -- specialize (R 0 ([], [])). destruct a; try discriminate R. cbn [aresume] in R. injection R as <- <-. rewrite HO. cbn [told List.app]. rewrite Nat.eqb_refl.
             lastly H W (fun a => match a with ATold _ => Some (RBool true) | _ => None end); cbn [told]; (split; [exists []; reflexivity|]); intros v J; peel J.
             injection J as <-. destruct x; try discriminate. injection H0 as <-. split; [reflexivity|]. exists []. split; [reflexivity|discriminate].
          -- split; [eexists; reflexivity|]. intros v J. peel J.
        * apply walk_end in W as (_ & -> & _). split; [exists []; reflexivity|]. intros v J. peel J. injection J as <-. split; [reflexivity|]. exists []. split; [reflexivity|discriminate].
      + injection R as <- <-. apply walk_end in W as (_ & -> & _). split; [exists []; reflexivity|]. intros v J. peel J. injection J as <-. split; [reflexivity|]. exists []. split; [reflexivity|discriminate].
    - split; [eexists; reflexivity|]. intros v J. peel J. }
  assert (V : c = VNone \/ (d, os1, p) = (tabs_of s1, [OTell t (WMessage c)], POffer) /\ match c with VNone => [] | _ => [WMessage c] end = [WMessage c] /\ forall bs, match c with VNone => false | _ => existsb (fun b => b) bs end = existsb (fun b => b) bs).
  { clearbody c. destruct c; [left; reflexivity|..]; right; rewrite <- E; auto. }
  destruct V as [V|(V & -> & BS)].
  - rewrite V in E |- *. injection E as <- <- <-. apply walk_end in W as (_ & -> & _). split; [exists []; reflexivity|]. intros v J. peel J. injection J as <-. split; [reflexivity|]. exists []. split; [reflexivity|discriminate].
  - injection V as -> -> ->. cbn [told List.app]. rewrite Nat.eqb_refl. setoid_rewrite BS.
    lastly H W (fun a => match a with ATold bs => Some (RBool (existsb (fun b => b) bs)) | _ => None end); cbn [told]; (split; [exists []; reflexivity|]); intros v J; peel J.
    injection J as <-. destruct x; try discriminate. injection H0 as <-. split; [reflexivity|]. exists bs. split; [reflexivity|]. rewrite H. left. reflexivity.
Qed.
