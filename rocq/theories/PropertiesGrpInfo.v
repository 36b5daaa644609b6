(** C82-C84, C97: association group information.  Statements only; proofs are in GrpInfoProofs.v. *)
From Coq Require Import String ZArith List Bool Lia.
From Verif Require Import Py Schema Registry Codec StorageM SpecStorage GrpInfoM SpecGrpInfo.
From Verif Require GrpInfoProofs GrpInterview.
Import ListNotations.
Open Scope list_scope.
Open Scope string_scope.
Open Scope list_scope.
Open Scope Z_scope.

Definition y_base : pystr := chars "/tmp".
(** a class that has just been created: version 1, not interviewed, no groups *)
Definition y0 : astate := astate0 [] 1 false [] y_base 5 0 [].
Definition got (bs : list Z) : val := match decode bs with Ok m => m | Err _ => VNone end.
(** groups 1 (profile 1) and 2 (profile 8193) *)
Definition y_info : list Z := [89; 4; 130; 1; 0; 0; 1; 0; 0; 0; 2; 0; 32; 1; 0; 0; 0].
Definition y_info1 : list Z := [89; 4; 129; 1; 0; 0; 1; 0; 0; 0].
Definition y_name1 : list Z := [89; 2; 1; 4; 76; 105; 102; 101].       (* "Life" *)
Definition y_commands (g : Z) : list Z := [89; 6; g; 4; 90; 1; 38; 3].
Definition heard (bs : list Z) : Prop := decode bs = Ok (got bs).
Definition ended (s : astate) : Prop := forall p, In p (a_tasks s) -> exists r, p = PEnd r.

Ltac calls H := vm_compute in H; repeat (destruct H as [H|H]; [first [discriminate H|injection H as _ <-; cbn [complete]]|]); try (destruct H; fail).

(** ** C82 *)
(** a command list for a group that is not known raises KeyError *)
Theorem C82_unknown_refuted : heard (y_commands 3) /\ exists s tr, aexec y0 [ECall (CCommands (got (y_commands 3)))] s tr /\ all_complete tr /\ In (OEnd 0 (Err EKey)) tr.
Proof.
  split; [vm_compute; reflexivity|]. eexists _, _. split; [apply GrpInfoProofs.arun_exec; vm_compute; reflexivity|]. split; [|cbn; auto].
  intros t c [H|[H|[]]]; [|discriminate H]. injection H as _ <-. eexists _, _. split; vm_compute; reflexivity.
Qed.
Print Assumptions C82_unknown_refuted.
(** a repeated info report throws away the name and the commands *)
Definition y_again : list aevent :=
  [ECall (CInfo (got y_info1)); ESent 0 (Ok true); ESent 0 (Ok true); ECall (CName (got y_name1)); ECall (CCommands (got (y_commands 1))); ECall (CInfo (got y_info1)); ESent 3 (Ok true); ESent 3 (Ok true)].
Theorem C82_refresh_refuted : heard y_info1 /\ heard y_name1 /\ exists s tr, aexec y0 y_again s tr /\ all_complete tr /\ ended s /\
  dget Z.eqb 1 (a_groups s) = Some (mkGroup 1 None None) /\ last_of (names 1) None tr (Some (chars "Life")).
Proof.
  split; [vm_compute; reflexivity|]. split; [vm_compute; reflexivity|]. eexists _, _. split; [apply GrpInfoProofs.arun_exec; vm_compute; reflexivity|].
  split; [|split; [|split; [vm_compute; reflexivity|]]].
  - intros t c H. calls H.
    + exists [(1, 1)]. eexists. split; [reflexivity|]. repeat constructor; cbn; try lia. eexists. repeat split; reflexivity.
    + eexists _, _. split; reflexivity.
    + eexists _, _. split; reflexivity.
    + exists [(1, 1)]. eexists. split; [reflexivity|]. repeat constructor; cbn; try lia. eexists. repeat split; reflexivity.
  - intros p H. cbn in H. repeat (destruct H as [<-|H]; [eexists; reflexivity|]). destruct H.
  - left. eexists [_; _; _; _], (OCall 1 (CName (got y_name1))), _, _. split; [vm_compute; reflexivity|]. split; [exists 1%nat, (got y_name1); split; [reflexivity|split; vm_compute; reflexivity]|]. split; [vm_compute; reflexivity|].
    intros o x H (t & m & -> & _). cbn in H. repeat (destruct H as [H|H]; [discriminate H|]). destruct H.
Qed.
Print Assumptions C82_refresh_refuted.
(** a name report that ends after the group number names the group "None" *)
Theorem C82_none_refuted : heard [89; 2; 1] /\ exists s tr, aexec y0 [ECall (CInfo (got y_info1)); ECall (CName (got [89; 2; 1]))] s tr /\
  dget Z.eqb 1 (a_groups s) = Some (mkGroup 1 (Some (chars "None")) None).
Proof. split; [vm_compute; reflexivity|]. eexists _, _. split; [apply GrpInfoProofs.arun_exec; vm_compute; reflexivity|]. vm_compute. reflexivity. Qed.
Print Assumptions C82_none_refuted.
(** an info report that announces two groups but describes one makes a group 0 known *)
Theorem C82_phantom_refuted : let bs := [89; 4; 130; 1; 0; 0; 1; 0; 0; 0] in heard bs /\ exists s tr, aexec y0 [ECall (CInfo (got bs)); ESent 0 (Ok true); ESent 0 (Ok true)] s tr /\
  dget Z.eqb 0 (a_groups s) = Some (mkGroup 0 None None).
Proof. split; [vm_compute; reflexivity|]. eexists _, _. split; [apply GrpInfoProofs.arun_exec; vm_compute; reflexivity|]. vm_compute. reflexivity. Qed.
Print Assumptions C82_phantom_refuted.
(** What holds, whatever the order of the reports and however the handlers are interleaved: a group is known once the library has turned
    to an entry of an info report about it, with the profile given there, and its name and commands are the last ones
    reported after that *)
Theorem C82_partial gs v i others base n ep d es s tr : aexec (astate0 gs v i others base n ep d) es s tr -> all_complete tr -> forall g,
  match dget Z.eqb g (a_groups s) with
  | Some r => known_as g (dget Z.eqb g gs) tr r
  | None => dget Z.eqb g gs = None /\ forall o, In o tr -> ~ asks_name o g
  end.
Proof. exact (GrpInfoProofs.groups_known gs v i others base n ep d es s tr). Qed.
Print Assumptions C82_partial.
Theorem C82_name_partial gs v i others base n ep d es s a t m b : aexec (astate0 gs v i others base n ep d) es s (a ++ OCall t (CName m) :: b) -> all_complete (a ++ OCall t (CName m) :: b) ->
  exists b', b = OEnd t (Ok true) :: b'.
Proof. exact (GrpInfoProofs.name_result gs v i others base n ep d es s a t m b). Qed.
Print Assumptions C82_name_partial.
Theorem C82_commands_partial gs v i others base n ep d es s a t m b g l : aexec (astate0 gs v i others base n ep d) es s (a ++ OCall t (CCommands m) :: b) -> all_complete (a ++ OCall t (CCommands m) :: b) ->
  gives_commands m g l -> exists r b', b = OEnd t r :: b' /\
  ((r = Ok true /\ (dget Z.eqb g gs <> None \/ exists o, In o a /\ asks_name o g)) \/ (r = Err EKey /\ dget Z.eqb g gs = None /\ forall o, In o a -> ~ asks_name o g)).
Proof. exact (GrpInfoProofs.commands_result gs v i others base n ep d es s a t m b g l). Qed.
Print Assumptions C82_commands_partial.
(** the name of group 1 is reported while the handler still waits to ask for its commands, group 2's commands too early *)
Definition y_mixed : list aevent :=
  [ECall (CInfo (got y_info)); ECall (CName (got y_name1)); ESent 0 (Ok true); ECall (CCommands (got (y_commands 2))); ESent 0 (Ok false); ESent 0 (Ok true); ESent 0 (Ok true); ECall (CCommands (got (y_commands 2)))].
Example C82_example : heard y_info /\ exists s tr, aexec y0 y_mixed s tr /\ all_complete tr /\ ended s /\
  a_groups s = [(1, mkGroup 1 (Some (chars "Life")) None); (2, mkGroup 8193 None (Some [VList [VInt 90; VInt 1]; VList [VInt 38; VInt 3]]))] /\
  In (OEnd 2 (Err EKey)) tr /\ In (OEnd 3 (Ok true)) tr.
Proof.
  split; [vm_compute; reflexivity|]. eexists _, _. split; [apply GrpInfoProofs.arun_exec; vm_compute; reflexivity|].
  split; [|split; [|split; [vm_compute; reflexivity|split; vm_compute; tauto]]].
  - intros t c H. calls H.
    + exists [(1, 1); (2, 8193)]. eexists. split; [reflexivity|]. repeat constructor; cbn; try lia; eexists; repeat split; reflexivity.
    + eexists _, _. split; reflexivity.
    + eexists _, _. split; reflexivity.
    + eexists _, _. split; reflexivity.
  - intros p H. cbn in H. repeat (destruct H as [<-|H]; [eexists; reflexivity|]). destruct H.
Qed.

(** ** C83 *)
(** one request that cannot be sent, and the groups listed after it stay unknown *)
Theorem C83_refuted : exists s tr, aexec y0 [ECall (CInfo (got y_info)); ESent 0 (Err ETimeout)] s tr /\ all_complete tr /\ ended s /\
  advertises (got y_info) [(1, 1); (2, 8193)] /\ dget Z.eqb 2 (a_groups s) = None /\ sends 0 tr = [Ok [89; 1; 1]].
Proof.
  assert (A : advertises (got y_info) [(1, 1); (2, 8193)]) by (eexists; split; [vm_compute; reflexivity|]; repeat constructor; cbn; try lia; eexists; repeat split; reflexivity).
  eexists _, _. split; [apply GrpInfoProofs.arun_exec; vm_compute; reflexivity|]. split; [|split; [|split; [exact A|split; vm_compute; reflexivity]]].
  - intros t c H. calls H. exists [(1, 1); (2, 8193)]. exact A.
  - intros p H. cbn in H. repeat (destruct H as [<-|H]; [eexists; reflexivity|]). destruct H.
Qed.
Print Assumptions C83_refuted.
(** What holds: a handler asks for name and commands of the advertised groups, in the order of the report and never twice; when it
    ends normally it has asked for all of them and all are known; it only fails with the exception of one of its sends;
    and as long as it has not ended it continues with the end of the pending send *)
Theorem C83_partial gs v i others base n ep d es s tr t m adv : aexec (astate0 gs v i others base n ep d) es s tr -> all_complete tr ->
  In (OCall t (CInfo m)) tr -> advertises m adv ->
  (exists n, sends t tr = firstn n (questions adv)) /\
  (forall b, In (OEnd t (Ok b)) tr -> b = true /\ sends t tr = questions adv /\ forall g p, In (g, p) adv -> exists r, dget Z.eqb g (a_groups s) = Some r) /\
  (forall x, In (OEnd t (Err x)) tr -> In (ESent t (Err x)) es) /\
  ((forall r, ~ In (OEnd t r) tr) -> forall r, exists s' o, astep s (ESent t r) = Some (s', o)).
Proof. exact (GrpInfoProofs.info_story gs v i others base n ep d es s tr t m adv). Qed.
Print Assumptions C83_partial.
Example C83_example : exists s tr, aexec y0 y_mixed s tr /\ In (OCall 0 (CInfo (got y_info))) tr /\ In (OEnd 0 (Ok true)) tr /\
  sends 0 tr = [Ok [89; 1; 1]; Ok [89; 5; 128; 1]; Ok [89; 1; 2]; Ok [89; 5; 128; 2]].
Proof. eexists _, _. split; [apply GrpInfoProofs.arun_exec; vm_compute; reflexivity|]. split; [vm_compute; tauto|]. split; vm_compute; tauto. Qed.

(** ** C84 *)
(** the interview is over and marked as such, all reports have come and all handlers have ended; after a restart the class is
    marked as interviewed and knows no group *)
Definition y_all : list aevent :=
  [ECall CInterview; ESent 0 (Ok true); ECall (CInfo (got y_info1)); ESent 1 (Ok true); ESent 1 (Ok true); ECall (CName (got y_name1)); ECall (CCommands (got (y_commands 1)))].
Theorem C84_refuted : exists s tr after c', aexec y0 y_all s tr /\ ended s /\
  dget Z.eqb 1 (a_groups s) = Some (mkGroup 1 (Some (chars "Life")) (Some [VList [VInt 90; VInt 1]; VList [VInt 38; VInt 3]])) /\
  node_added (fun _ _ => Ok None) y_base 5 0 (a_disk s) [(89, cls0)] = (after, None) /\ dget Z.eqb 89 after = Some c' /\
  c_interviewed c' = true /\ forall g p, look_class (Attr "groupings" :: Key g :: p) c' = None.
Proof.
  eexists _, _, _, _. split; [apply GrpInfoProofs.arun_exec; vm_compute; reflexivity|].
  split; [intros p H; cbn in H; repeat (destruct H as [<-|H]; [eexists; reflexivity|]); destruct H|]. repeat (split; [vm_compute; reflexivity|]).
  intros g p. reflexivity.
Qed.
Print Assumptions C84_refuted.
(** What holds: whatever was known at the last save is restored (the commands as texts, see C76) *)
Theorem C84_partial s0 es1 s1 tr1 e s2 o es2 s3 tr2 cut fresh c0 :
  aexec s0 es1 s1 tr1 -> NoDup (map fst (a_groups s0)) -> node_ok (a_others s0) -> ~ In 89 (map fst (a_others s0)) ->
  astep s1 e = Some (s2, o) -> In OSaved o -> aexec s2 es2 s3 tr2 -> unsaved tr2 -> NoDup (map fst fresh) -> dget Z.eqb 89 fresh = Some c0 ->
  exists after c', node_added cut (a_base s0) (a_node s0) (a_ep s0) (a_disk s3) fresh = (after, None) /\ dget Z.eqb 89 after = Some c' /\
  forall g r, dget Z.eqb g (a_groups s1) = Some r ->
    look_class [Attr "groupings"; Key g; Attr "profile"] c' = Some (IsInt (gr_profile r)) /\
    (forall n, gr_name r = Some n -> look_class [Attr "groupings"; Key g; Attr "name"] c' = Some (IsText n)) /\
    (forall l, gr_commands r = Some (map (fun x => VList [VInt (fst x); VInt (snd x)]) l) ->
       look_class [Attr "groupings"; Key g; Attr "commands"] c' = Some (IsList (map (fun x => as_text (PList [PInt (fst x); PInt (snd x)])) l))).
Proof. exact (GrpInfoProofs.groups_back s0 es1 s1 tr1 e s2 o es2 s3 tr2 cut fresh c0). Qed.
Print Assumptions C84_partial.
Example C84_example : exists s1 tr1 s2 o, aexec y0 y_all s1 tr1 /\ astep s1 EOther = Some (s2, o) /\ In OSaved o /\ NoDup (map fst (a_groups y0)) /\ node_ok (a_others y0) /\
  exists after c', node_added (fun _ _ => Ok None) y_base 5 0 (a_disk s2) [(89, cls0)] = (after, None) /\ dget Z.eqb 89 after = Some c' /\
  look_class [Attr "groupings"; Key 1; Attr "name"] c' = Some (IsText (chars "Life")).
Proof.
  eexists _, _, _, _. split; [apply GrpInfoProofs.arun_exec; vm_compute; reflexivity|]. split; [vm_compute; reflexivity|]. split; [left; reflexivity|].
  split; [constructor|]. split; [split; [constructor|intros id c []]|]. eexists _, _. split; [vm_compute; reflexivity|]. split; vm_compute; reflexivity.
Qed.

(** ** C97 *)
(** the node refused the request ([send] returned False), and the class counts as interviewed all the same: nothing was asked, nothing is known,
    and this is what the settings file says *)
Theorem C97_refuted : exists s tr, aexec y0 [ECall CInterview; ESent 0 (Ok false)] s tr /\ In (OCall 0 CInterview) tr /\ In (OEnd 0 (Ok true)) tr /\
  a_interviewed s = true /\ a_groups s = [] /\ In OSaved tr.
Proof.
  eexists _, _. split; [apply GrpInfoProofs.arun_exec; vm_compute; reflexivity|]. split; [vm_compute; tauto|]. split; [vm_compute; tauto|].
  split; [reflexivity|]. split; [reflexivity|vm_compute; tauto].
Qed.
Print Assumptions C97_refuted.
(** What holds: an interview sends one request, the list of all groups; it ends when this [send] is over and never before, with True if the
    send returned, with False if it timed out, with the exception otherwise *)
Theorem C97_partial gs v i others base n ep d es s tr t : aexec (astate0 gs v i others base n ep d) es s tr -> In (OCall t CInterview) tr ->
  sends t tr = [Ok [89; 3; 64; 0]] /\
  (((forall r, ~ In (OEnd t r) tr) /\ forall r, ~ In (ESent t r) es) \/
   (exists r, In (ESent t r) es /\ forall r', In (OEnd t r') tr <-> r' = interview_answer r)).
Proof. exact (GrpInterview.interview_story gs v i others base n ep d es s tr t). Qed.
Print Assumptions C97_partial.
(** the class is marked as interviewed exactly if no interview was started after the last one that ended with True *)
Theorem C97_flag_partial gs v i others base n ep d es s tr : aexec (astate0 gs v i others base n ep d) es s tr ->
  last_of (marks tr) (Some i) tr (Some (a_interviewed s)).
Proof. exact (GrpInterview.interview_flag gs v i others base n ep d es s tr). Qed.
Print Assumptions C97_flag_partial.
(** and the settings are saved right before an interview ends with True *)
Theorem C97_saved_partial gs v i others base n ep d es s tr t : aexec (astate0 gs v i others base n ep d) es s tr ->
  In (OCall t CInterview) tr -> In (OEnd t (Ok true)) tr -> exists a b, tr = a ++ OSaved :: OEnd t (Ok true) :: b.
Proof. exact (GrpInterview.interview_saves gs v i others base n ep d es s tr t). Qed.
Print Assumptions C97_saved_partial.
(** two interviews overlap and a report comes in between; the second times out *)
Definition y_twice : list aevent := [ECall CInterview; ECall CInterview; ECall (CInfo (got y_info1)); ESent 0 (Ok true); ESent 2 (Ok true); ESent 1 (Err ETimeout)].
Example C97_example : exists s tr, aexec y0 y_twice s tr /\ In (OCall 0 CInterview) tr /\ In (OEnd 0 (Ok true)) tr /\ In (OCall 1 CInterview) tr /\ In (OEnd 1 (Ok false)) tr /\
  a_interviewed s = true.
Proof. eexists _, _. split; [apply GrpInfoProofs.arun_exec; vm_compute; reflexivity|]. repeat (split; [vm_compute; tauto|]). reflexivity. Qed.
