(** C69-C71, C77-C79: the application.  Statements only; proofs are in App*.v. *)
From Coq Require Import String ZArith List Bool Lia.
From Verif Require Import Py Schema Registry Codec Waiter Conn NodeM AppM SpecApp.
From Verif Require AppProofs AppUpdate AppRace AppRoute AppStart AppAnnounce.
Import ListNotations.
Open Scope list_scope.
Open Scope string_scope.
Open Scope list_scope.
Open Scope Z_scope.

(** ** C69 *)
Theorem C69_update es1 s1 a es s b t l v : aexec app0 es1 s1 a -> aexec s1 es s b -> same_id es -> unmixed t (a ++ b) b ->
  In (OCalled t AUpdate) b -> In (OAnswer t QNodes (ANodes l)) b -> In (ODone t (Ok v)) b ->
  (forall r e, entry s (r, e) <> None <-> In r l /\ (entry s1 (r, e) <> None \/ entry s1 (r, 0) = None /\ r <> a_me s1 /\ (e = 0 \/ exists c, In (OAnswer t (QCount r) (ACount c)) b /\ 1 <= e <= c))) /\
  (forall r e, In r l -> entry s1 (r, 0) <> None -> entry s (r, e) = entry s1 (r, e) /\ object s (r, e) = object s1 (r, e)) /\
  (forall r, In r l -> entry s1 (r, 0) = None -> r <> a_me s1 -> as_reported t b s r) /\
  (exists removed new, told t b = map WRemoved removed ++ unless_nil removed (WRemovedAll removed) ++ unless_nil new (WAddedAll new) ++ map WAdded new /\
    NoDup removed /\ (forall k, In k removed <-> entry s1 k <> None /\ ~ In (fst k) l) /\
    NoDup new /\ (forall i, In i new <-> (length (a_objs s1) <= i)%nat /\ exists k, entry s k = Some i)).
Proof. exact (AppUpdate.update_done es1 s1 a es s b t l v). Qed.
Print Assumptions C69_update.
(** node 5 has one end point; then 5 leaves and 6 joins *)
Definition x_info (cls : list Z) : res answer := Ok (AInfo cls 4 16 1 true).
Definition x_told : res answer := Ok (ATold []).
Definition x_first : list aevent :=
  [EMe 1; ECall AUpdate; EAnswer 0 (Ok (ANodes [1; 5])); EAnswer 0 (x_info [94; 96]); EAnswer 0 (Ok (ACount 1)); EAnswer 0 (Ok (ACap [37] 16 1)); EAnswer 0 x_told; EAnswer 0 x_told; EAnswer 0 x_told].
Definition x_second : list aevent :=
  [ECall AUpdate; EAnswer 1 (Ok (ANodes [1; 6])); EAnswer 1 x_told; EAnswer 1 x_told; EAnswer 1 x_told; EAnswer 1 (x_info [94]); EAnswer 1 x_told; EAnswer 1 x_told].
Definition run_of (s : app) (es : list aevent) : app * list aobs := match arun s es with Some r => r | None => (s, []) end.
Definition x_s1 : app := Eval vm_compute in fst (run_of app0 x_first).
Definition x_t1 : list aobs := Eval vm_compute in snd (run_of app0 x_first).
Definition x_s2 : app := Eval vm_compute in fst (run_of x_s1 x_second).
Definition x_t2 : list aobs := Eval vm_compute in snd (run_of x_s1 x_second).
Example C69_case : aexec app0 x_first x_s1 x_t1 /\ aexec x_s1 x_second x_s2 x_t2 /\ same_id x_second /\ unmixed 1 (x_t1 ++ x_t2) x_t2 /\
  In (OCalled 1 AUpdate) x_t2 /\ In (OAnswer 1 QNodes (ANodes [1; 6])) x_t2 /\ In (ODone 1 (Ok RNone)) x_t2 /\
  told 1 x_t2 = [WRemoved (5, 0); WRemoved (5, 1); WRemovedAll [(5, 0); (5, 1)]; WAddedAll [2%nat]; WAdded 2%nat] /\
  map fst (a_tab x_s1) = [(5, 0); (5, 1)] /\ map fst (a_tab x_s2) = [(6, 0)].
Proof.
  split; [apply AppProofs.arun_exec; vm_compute; reflexivity|]. split; [apply AppProofs.arun_exec; vm_compute; reflexivity|].
  split; [intros z J; vm_compute in J; intuition discriminate|]. split.
  { assert (F : forallb (fun o => Nat.eqb (who o) 1) x_t2 = true) by (vm_compute; reflexivity). rewrite forallb_forall in F. intros o c J N. apply F, PeanoNat.Nat.eqb_eq in J. contradiction. }
  repeat split; vm_compute; tauto.
Qed.

(** ** C70 *)
(** two overlapping updates that both find 5 and 6 gone: the first deletes 5 and informs the listeners; meanwhile the second finds
    6 and deletes it; the first then fails *)
Definition x_nodes : list aevent :=
  [EMe 1; ECall AUpdate; EAnswer 0 (Ok (ANodes [1; 5; 6])); EAnswer 0 (x_info [94]); EAnswer 0 (x_info [94]); EAnswer 0 x_told; EAnswer 0 x_told; EAnswer 0 x_told].
Definition x_crash : list aevent := [ECall AUpdate; ECall AUpdate; EAnswer 1 (Ok (ANodes [1])); EAnswer 2 (Ok (ANodes [1])); EAnswer 1 x_told].
Theorem C70_refuted : exists es1 s1 a es s b, aexec app0 es1 s1 a /\ aexec s1 es s b /\ (forall t e, ~ In (EAnswer t (Err e)) es) /\
  (forall t l, In (OAnswer t QNodes (ANodes l)) b -> l = [1]) /\ In (OCalled 1 AUpdate) b /\ In (OCalled 2 AUpdate) b /\ In (ODone 1 (Err EKey)) b.
Proof.
  exists x_nodes. eexists _, _. exists x_crash. eexists _, _. split; [apply AppProofs.arun_exec; vm_compute; reflexivity|]. split; [apply AppProofs.arun_exec; vm_compute; reflexivity|].
  split; [intros t e J; vm_compute in J; intuition discriminate|]. split; [intros t l J; vm_compute in J; intuition congruence|]. repeat split; vm_compute; tauto.
Qed.
Print Assumptions C70_refuted.
(** an update with an older list is still loading node 5 when a newer one, which no longer lists 5, completes: 5 is added afterwards *)
Definition x_stale : list aevent :=
  [EMe 1; ECall AUpdate; EAnswer 0 (Ok (ANodes [1; 5])); ECall AUpdate; EAnswer 1 (Ok (ANodes [1])); EAnswer 0 (x_info [94]); EAnswer 0 x_told; EAnswer 0 x_told].
Theorem C70_table_refuted : exists es s tr x y, aexec app0 es s tr /\ (forall t e, ~ In (EAnswer t (Err e)) es) /\
  In (ODone 0 (Ok RNone)) tr /\ In (ODone 1 (Ok RNone)) tr /\ tr = x ++ OAnswer 1 QNodes (ANodes [1]) :: y /\ In (OAnswer 0 QNodes (ANodes [1; 5])) x /\ entry s (5, 0) <> None.
Proof.
  exists x_stale. eexists _, _, _, _. split; [apply AppProofs.arun_exec; vm_compute; reflexivity|].
  split; [intros t e J; vm_compute in J; intuition discriminate|]. split; [vm_compute; tauto|]. split; [vm_compute; tauto|].
  split; [|split; [|vm_compute; discriminate]].
  2: instantiate (1 := [OCalled 0 AUpdate; OQuery 0 QNodes; OAnswer 0 QNodes (ANodes [1; 5]); OQuery 0 (QInfo 5); OCalled 1 AUpdate; OQuery 1 QNodes]); vm_compute; tauto.
  cbn [List.app]. reflexivity.
Qed.
Print Assumptions C70_table_refuted.
(** the ways an update can fail, whatever runs beside it *)
Theorem C70_partial es s tr t e : aexec app0 es s tr -> In (OCalled t AUpdate) tr -> In (ODone t (Err e)) tr ->
  In (EAnswer t (Err e)) es \/
  (e = EIndex /\ exists cls, last cls 0 = 241 /\ ((exists n bas gen spc lis, In (OAnswer t (QInfo n) (AInfo cls bas gen spc lis)) tr) \/ exists n ep gen spc, In (OAnswer t (QCap n ep) (ACap cls gen spc)) tr)) \/
  (e = EKey /\ exists x l y k u, tr = x ++ OAnswer t QNodes (ANodes l) :: y /\ u <> t /\ In (ODel u k) y /\ ~ In (fst k) l).
Proof. exact (AppRace.update_errors es s tr t e). Qed.
Print Assumptions C70_partial.
(** overlapping updates that see the same list: as soon as one of them has completed, the known nodes are the right ones, and stay so *)
Theorem C70_same_list_partial es1 s1 a es s b l t v : aexec app0 es1 s1 a -> aexec s1 es s b -> same_id es -> only_updates (a ++ b) b -> one_list b l ->
  In (OCalled t AUpdate) b -> In (ODone t (Ok v)) b ->
  (forall r, entry s (r, 0) <> None <-> In r l /\ (entry s1 (r, 0) <> None \/ r <> a_me s1)) /\
  (forall k, entry s k <> None -> In (fst k) l) /\ (forall k, In (fst k) l -> entry s1 k <> None -> entry s k <> None).
Proof. exact (AppRace.updates_agree es1 s1 a es s b l t v). Qed.
Print Assumptions C70_same_list_partial.
(** node 5 leaves, 7 joins, and two updates handle it at the same time *)
Definition x_both : list aevent :=
  [ECall AUpdate; ECall AUpdate; EAnswer 1 (Ok (ANodes [1; 6; 7])); EAnswer 1 x_told; EAnswer 2 (Ok (ANodes [1; 6; 7])); EAnswer 1 x_told; EAnswer 2 (x_info [94]); EAnswer 1 (x_info [94]);
   EAnswer 2 x_told; EAnswer 1 x_told; EAnswer 2 x_told; EAnswer 1 x_told].
Definition x_s3 : app := Eval vm_compute in fst (run_of app0 x_nodes).
Definition x_t3 : list aobs := Eval vm_compute in snd (run_of app0 x_nodes).
Definition x_s4 : app := Eval vm_compute in fst (run_of x_s3 x_both).
Definition x_t4 : list aobs := Eval vm_compute in snd (run_of x_s3 x_both).
Example C70_case : aexec app0 x_nodes x_s3 x_t3 /\ aexec x_s3 x_both x_s4 x_t4 /\ same_id x_both /\ only_updates (x_t3 ++ x_t4) x_t4 /\ one_list x_t4 [1; 6; 7] /\
  In (OCalled 1 AUpdate) x_t4 /\ In (ODone 1 (Ok RNone)) x_t4 /\ In (ODone 2 (Ok RNone)) x_t4 /\ map fst (a_tab x_s3) = [(5, 0); (6, 0)] /\ map fst (a_tab x_s4) = [(6, 0); (7, 0)].
Proof.
  split; [apply AppProofs.arun_exec; vm_compute; reflexivity|]. split; [apply AppProofs.arun_exec; vm_compute; reflexivity|].
  split; [intros z J; vm_compute in J; intuition discriminate|]. split.
  { assert (F : forallb (fun o => Nat.eqb (who o) 1 || Nat.eqb (who o) 2) x_t4 = true) by (vm_compute; reflexivity). rewrite forallb_forall in F. intros o c J C _. apply F in J.
    assert (G : forallb (fun o => match o with OCalled _ AUpdate => true | OCalled _ _ => false | _ => true end) (x_t3 ++ x_t4) = true) by (vm_compute; reflexivity). rewrite forallb_forall in G. apply G in C. destruct c; try discriminate C. split; [reflexivity|].
    apply orb_prop in J as [J|J]; apply PeanoNat.Nat.eqb_eq in J; rewrite J; vm_compute; tauto. }
  split; [intros u l' J; cbn in J; assert (l' = [1; 6; 7]) by (intuition congruence); subst; tauto|]. repeat split; vm_compute; tauto.
Qed.

(** ** C71 *)
Theorem C71_routed es1 s1 a r ep m f s2 os es s b t : aexec app0 es1 s1 a -> astep s1 (ECall (AMessage r ep m f)) = Some (s2, os) -> aexec s2 es s b -> t = length (a_tasks s1) ->
  match (match ep with Some e => entry s1 (r, e) | None => None end) with
  | Some i =>
      (exists o e, nth_error (a_objs s1) i = Some o /\ ep = Some e /\ o_root o = r /\ o_ep o = e) /\
      deeds t (os ++ b) = OCalled t (AMessage r ep m f) :: OHandle t i m f ::
        match results t es with Ok (AHandled h) :: _ => [ODone t (Ok (RBool h))] | Err e :: _ => [ODone t (Err e)] | _ => [] end
  | None =>
      deeds t (os ++ b) = OCalled t (AMessage r ep m f) ::
        if r =? a_me s1 then OTell t (WMessage m) :: match results t es with Ok _ :: _ => [ODone t (Ok (RBool true))] | Err e :: _ => [ODone t (Err e)] | [] => [] end
        else [ODone t (Ok (RBool false))]
  end.
Proof. exact (AppRoute.routed es1 s1 a r ep m f s2 os es s b t). Qed.
Print Assumptions C71_routed.
(** the end point of node 5 gets the message; an unknown end point does not, and the controller's messages go to the listeners *)
Example C71_case : entry x_s1 (5, 1) = Some 1%nat /\ entry x_s1 (5, 2) = None /\
  (exists s tr, arun x_s1 [ECall (AMessage 5 (Some 1) VNone VNone); EAnswer 1 (Ok (AHandled true))] = Some (s, tr) /\ tr = [OCalled 1 (AMessage 5 (Some 1) VNone VNone); OHandle 1 1 VNone VNone; ODone 1 (Ok (RBool true))]) /\
  (exists s tr, arun x_s1 [ECall (AMessage 5 (Some 2) VNone VNone)] = Some (s, tr) /\ tr = [OCalled 1 (AMessage 5 (Some 2) VNone VNone); ODone 1 (Ok (RBool false))]) /\
  (exists s tr, arun x_s1 [ECall (AMessage 1 (Some 0) VNone VNone); EAnswer 1 x_told] = Some (s, tr) /\ tr = [OCalled 1 (AMessage 1 (Some 0) VNone VNone); OTell 1 (WMessage VNone); ODone 1 (Ok (RBool true))]).
Proof. split; [vm_compute; reflexivity|]. split; [vm_compute; reflexivity|]. repeat split; eexists _, _; vm_compute; auto. Qed.

(** ** C77 *)
Theorem C77_reports s1 m s2 os es s b t : astep s1 (ECall (AUnhandled m)) = Some (s2, os) -> aexec s2 es s b -> t = length (a_tasks s1) ->
  (exists rest, report_news m = told t (os ++ b) ++ rest) /\
  (forall v, In (ODone t (Ok v)) (os ++ b) -> told t (os ++ b) = report_news m /\ exists bs, v = RBool (report_handled m bs) /\ (told t (os ++ b) = [WMessage (getattr m "command")] -> In (Ok (ATold bs)) (results t es))).
Proof. exact (AppRoute.reports s1 m s2 os es s b t). Qed.
Print Assumptions C77_reports.
(** a device of another network was excluded (status 6, node 0) *)
Definition x_removal (node : Z) : val :=
  VObj (CMsg m_Zip_ZipPacket) [("command", VObj (CMsg m_NetworkManagementInclusion_NodeRemoveStatus) [("seqNo", VI false 1 1); ("status", VI false 1 6); ("nodeID", VI false 1 node)])].
Example C77_case : report_news (x_removal 0) = [WRemoveStatus (getattr (x_removal 0) "command"); WNodeZero; WNodesZero] /\ report_news (x_removal 9) = [WRemoveStatus (getattr (x_removal 9) "command")] /\
  exists s tr, arun app0 [ECall (AUnhandled (x_removal 0)); EAnswer 0 x_told; EAnswer 0 x_told; EAnswer 0 x_told] = Some (s, tr) /\ told 0 tr = report_news (x_removal 0) /\ In (ODone 0 (Ok (RBool true))) tr.
Proof. split; [vm_compute; reflexivity|]. split; [vm_compute; reflexivity|]. eexists _, _. split; [vm_compute; reflexivity|]. split; [vm_compute; reflexivity|]. vm_compute. tauto. Qed.

(** ** C78 *)
(** a node list update that starts while the start-up announces its nodes, and finds a new node 6, makes the start-up fail *)
Definition x_late : list aevent :=
  [EMe 1; ECall AStartup; EAnswer 0 (Ok (ANodes [1; 5])); EAnswer 0 (x_info [94]); EAnswer 0 (Ok (ANodes [])); EAnswer 0 x_told; ECall AUpdate; EAnswer 1 (Ok (ANodes [1; 5; 6])); EAnswer 1 (x_info [94]); EAnswer 0 x_told].
Theorem C78_refuted : exists es s tr, aexec app0 es s tr /\ (forall t e, ~ In (EAnswer t (Err e)) es) /\ In (OCalled 0 AStartup) tr /\ In (ODone 0 (Err ERuntime)) tr.
Proof.
  exists x_late. eexists _, _. split; [apply AppProofs.arun_exec; vm_compute; reflexivity|]. split; [intros t e J; vm_compute in J; intuition discriminate|]. split; vm_compute; tauto.
Qed.
Print Assumptions C78_refuted.
Theorem C78_partial es1 s1 a es s b t l v : aexec app0 es1 s1 a -> a_tab s1 = [] -> aexec s1 es s b -> same_id es -> unmixed t (a ++ b) b ->
  In (OCalled t AStartup) b -> NoDup l -> (forall l', In (OAnswer t QNodes (ANodes l')) b -> l' = l) -> In (ODone t (Ok v)) b ->
  (forall r e, entry s (r, e) <> None <-> In r l /\ r <> a_me s1 /\ (e = 0 \/ exists c, In (OAnswer t (QCount r) (ACount c)) b /\ 1 <= e <= c)) /\
  (forall r, In r l -> r <> a_me s1 -> as_reported t b s r) /\
  (exists all, told t b = WAddedAll all :: map WAdded all /\ NoDup all /\ forall i, In i all <-> exists k, entry s k = Some i).
Proof. exact (AppStart.startup_done es1 s1 a es s b t l v). Qed.
Print Assumptions C78_partial.
(** node 5 has one end point, node 6 none *)
Definition x_start : list aevent :=
  [ECall AStartup; EAnswer 0 (Ok (ANodes [1; 5; 6])); EAnswer 0 (x_info [94; 96]); EAnswer 0 (Ok (ACount 1)); EAnswer 0 (Ok (ACap [37] 16 1)); EAnswer 0 (x_info [94]); EAnswer 0 (Ok (ANodes [])); EAnswer 0 x_told; EAnswer 0 x_told; EAnswer 0 x_told; EAnswer 0 x_told].
Definition x_me : app := mkA 1 [] [] [].
Definition x_s5 : app := Eval vm_compute in fst (run_of x_me x_start).
Definition x_t5 : list aobs := Eval vm_compute in snd (run_of x_me x_start).
Example C78_case : aexec app0 [EMe 1] x_me [] /\ aexec x_me x_start x_s5 x_t5 /\ same_id x_start /\ unmixed 0 ([] ++ x_t5) x_t5 /\
  In (OCalled 0 AStartup) x_t5 /\ NoDup [1; 5; 6] /\ (forall l', In (OAnswer 0 QNodes (ANodes l')) x_t5 -> l' = [1; 5; 6]) /\ In (ODone 0 (Ok RNone)) x_t5 /\
  map fst (a_tab x_s5) = [(5, 0); (5, 1); (6, 0)] /\ told 0 x_t5 = [WAddedAll [0; 1; 2]%nat; WAdded 0; WAdded 1; WAdded 2].
Proof.
  split; [apply AppProofs.arun_exec; vm_compute; reflexivity|]. split; [apply AppProofs.arun_exec; vm_compute; reflexivity|].
  split; [intros z J; vm_compute in J; intuition discriminate|]. split.
  { assert (F : forallb (fun o => Nat.eqb (who o) 0) x_t5 = true) by (vm_compute; reflexivity). rewrite forallb_forall in F. intros o c J N. apply F, PeanoNat.Nat.eqb_eq in J. contradiction. }
  split; [vm_compute; tauto|]. split; [repeat constructor; cbn; intuition discriminate|]. split; [intros l' J; vm_compute in J; intuition congruence|]. repeat split; vm_compute; tauto.
Qed.

(** ** C79 *)
(** the class list of node 6 is cut short, which ends the update after node 5 was loaded; once 6 has left, the next update
    succeeds but takes 5 for known *)
Definition x_stuck : list aevent :=
  [EMe 1; ECall AUpdate; EAnswer 0 (Ok (ANodes [1; 5; 6])); EAnswer 0 (x_info [94]); EAnswer 0 (x_info [94; 241]); ECall AUpdate; EAnswer 1 (Ok (ANodes [1; 5]))].
Theorem C79_refuted : exists es s tr, aexec app0 es s tr /\ (forall t e, ~ In (EAnswer t (Err e)) es) /\ In (ODone 0 (Err EIndex)) tr /\ In (ODone 1 (Ok RNone)) tr /\ length (a_tasks s) = 2%nat /\
  entry s (5, 0) = Some 0%nat /\ forall t w, ~ In (OTell t w) tr.
Proof.
  exists x_stuck. eexists _, _. split; [apply AppProofs.arun_exec; vm_compute; reflexivity|]. split; [intros t e J; vm_compute in J; intuition discriminate|].
  split; [vm_compute; tauto|]. split; [vm_compute; tauto|]. split; [reflexivity|]. split; [reflexivity|]. intros t w J. vm_compute in J. intuition discriminate.
Qed.
Print Assumptions C79_refuted.
(** whatever runs at the same time: what is in the table was put there by one task, and announced by it if it came to its end *)
Theorem C79_partial es s tr k i : aexec app0 es s tr -> entry s k = Some i ->
  exists t c, In (OCalled t c) tr /\ In (OPut t k i) tr /\ ((exists n, c = ALoad n) \/ forall v, In (ODone t (Ok v)) tr -> In (OTell t (WAdded i)) tr).
Proof. exact (AppAnnounce.announced es s tr k i). Qed.
Print Assumptions C79_partial.
(** two overlapping updates load node 7; the one object that stays in the table is the one its own update announced *)
Example C79_case : aexec app0 (x_nodes ++ x_both) x_s4 (x_t3 ++ x_t4) /\ entry x_s4 (7, 0) = Some 3%nat /\ (forall t, In (OPut t (7, 0) 3) (x_t3 ++ x_t4) -> t = 1%nat) /\ In (OPut 2 (7, 0) 2) x_t4 /\ In (ODone 1 (Ok RNone)) x_t4.
Proof.
  split; [apply AppProofs.arun_exec; vm_compute; reflexivity|]. split; [vm_compute; reflexivity|]. split; [intros t J; vm_compute in J; intuition congruence|]. split; vm_compute; tauto.
Qed.
