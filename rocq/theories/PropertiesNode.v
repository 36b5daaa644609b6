(** C47-C52, C57: nodes and listeners.  Statements only; proofs are in NodeProofs.v. *)
From Coq Require Import String ZArith List Bool Lia.
From Verif Require Import Py Schema Registry Codec Waiter Listen NodeM SpecNode.
From Verif Require NodeProofs.
Import ListNotations.
Open Scope list_scope.
Open Scope string_scope.
Open Scope list_scope.
Open Scope Z_scope.

(** ** C47 *)
Theorem C47_supports l ts n c : reads l ts -> new_node l = Ok n -> (supports n c = true <-> exists a b, ts = a ++ TkClass c :: b /\ supporting a).
Proof. exact (NodeProofs.supports_listed l ts n c). Qed.
Print Assumptions C47_supports.
(** the tables of supported and controlled classes, with their security flag *)
Theorem C47_tables l ts n c sec : reads l ts -> new_node l = Ok n ->
  (dget Z.eqb c (n_supported n) = Some sec <-> exists a, last_listed supporting c a ts /\ (sec = true <-> In TkS0 a)) /\
  (dget Z.eqb c (n_controlled n) = Some sec <-> exists a, last_listed (fun a => ~ supporting a) c a ts /\ (sec = true <-> In TkS0 a)).
Proof. exact (NodeProofs.nif_tables l ts n c sec). Qed.
Print Assumptions C47_tables.
(** the control mark is never a command class *)
Theorem C47_marks l ts c : reads l ts -> In (TkClass c) ts -> c <> 239.
Proof. exact (NodeProofs.class_not_control l ts c). Qed.
Print Assumptions C47_marks.
Example C47_example : reads [94; 133; 239; 32; 241; 0; 133; 98; 239; 38] [TkClass 94; TkClass 133; TkControl; TkClass 32; TkS0; TkClass 133; TkClass 98; TkControl; TkClass 38] /\
  exists n, new_node [94; 133; 239; 32; 241; 0; 133; 98; 239; 38] = Ok n /\ n_supported n = [(94, false); (133, true); (98, true)] /\ n_controlled n = [(32, false); (38, true)].
Proof. split; [repeat constructor; lia|]. eexists. split; [vm_compute; reflexivity|]. auto. Qed.

(** ** C48 *)
(** False: a list that ends with F1 raises IndexError *)
Theorem C48_total_refuted : ~ forall l, bytes_ok l -> exists n, new_node l = Ok n.
Proof. intros H. destruct (H [32; 241]) as (n & E); [repeat constructor; lia|]. vm_compute in E. discriminate. Qed.
Print Assumptions C48_total_refuted.
(** those are the only ones, and every other list can be read *)
Theorem C48_total_partial l : (last l 0 <> 241 -> exists n, new_node l = Ok n) /\ (last l 0 = 241 -> new_node l = Err EIndex) /\ ((exists ts, reads l ts) <-> last l 0 <> 241).
Proof. exact (conj (NodeProofs.new_node_ok l) (conj (NodeProofs.nif_fails l true false (mkCls [] [])) (NodeProofs.reads_total l))). Qed.
Print Assumptions C48_total_partial.

(** ** C49 *)
(** a waiting caller gets the message whatever the others do *)
Theorem C49_waiters m w cls ls w' st r : (exists c d, m = VObj c d) -> (forall f, dget Z.eqb (hid m) (w_sess w) = Some f -> nth_error (w_futs w) f = Some FPending) ->
  handle m w cls ls = (w', st, r) ->
  (awaited m w /\ exists f, dget Z.eqb (hid m) (w_sess w) = Some f /\ w' = mkW (ddel Z.eqb (hid m) (w_sess w)) (upd f (FDone m) (w_futs w))) \/ (~ awaited m w /\ w' = w).
Proof. exact (NodeProofs.handle_waiters m w cls ls w' st r). Qed.
Print Assumptions C49_waiters.
(** if nobody raises: the order, who is asked, and the result *)
(** [c], [k]: the command class and command of the message, see C06_decode_id *)
Theorem C49_route m c k w cls ls w' st r : (exists c d, m = VObj c d) -> hid m = 256 * c + k -> 0 <= c < 256 -> 0 <= k < 256 -> (forall f, dget Z.eqb (hid m) (w_sess w) = Some f -> nth_error (w_futs w) f = Some FPending) ->
  handle m w cls ls = (w', st, r) -> let mine := dget Z.eqb c cls in let taken := exists rc, mine = Some rc /\ class_takes m rc in
  (forall rc, mine = Some rc -> class_quiet rc) -> (forall l, In l ls -> ~ raises l) ->
  exists b, r = Ok b /\ (b = true <-> awaited m w \/ taken \/ exists l, In l ls /\ says_yes l) /\
    (exists h c n : bool, st = SWaiters :: (if h then [SHandler] else []) ++ (if c then [SClassListeners] else []) ++ (if n then [SNodeListeners] else []) /\
      (n = true <-> ~ awaited m w /\ ~ taken) /\
      (h = true <-> named m /\ exists rc, mine = Some rc /\ r_handler rc <> None) /\
      (c = true <-> named m /\ exists rc, mine = Some rc /\ r_handler rc <> Some (Ok true))).
Proof. exact (NodeProofs.handle_route_class m c k w cls ls w' st r). Qed.
Print Assumptions C49_route.
Example C49_example : exists w, handle (VObj (CMsg m_Basic_Report) [("value", VI false 1 5)]) waiter0 [(32, mkR None [Answers (Ok false)])] [Answers (Err EOther); Later (Ok true)] =
  (w, [SWaiters; SClassListeners; SNodeListeners], Ok true) /\ class_quiet (mkR None [Answers (Ok false)]).
Proof.
  eexists. split; [vm_compute; reflexivity|]. split; [discriminate|]. intros l [<-|[]] (e & E). discriminate.
Qed.

(** ** C50 *)
(** False: if handling the inner command raises no report is sent, for instance when there is no inner command *)
Theorem C50_one_report_refuted : exists bs m w st r, decode bs = Ok m /\ (exists d, m = VObj (CMsg m_Supervision_Get) d /\ aget "sessionID" d = Some (VB 6 5)) /\
  handle VNone waiter0 [] [] = (w, st, r) /\
  forall send, supervised (fun c => snd (handle c waiter0 [] [])) send m = ([VNone], [], r) /\ r = Err EAttribute.
Proof.
  exists [108; 1; 5], (VObj (CMsg m_Supervision_Get) [("statusUpdates", VF 0); ("-", VB 1 0); ("sessionID", VB 6 5)]). do 3 eexists.
  split; [vm_compute; reflexivity|]. split; [eexists; split; [reflexivity|vm_compute; reflexivity]|]. split; [vm_compute; reflexivity|]. intros send. vm_compute. auto.
Qed.
Print Assumptions C50_one_report_refuted.
(** If handling does not raise: the inner command is handled once and one report is sent, whose bytes are the class, the command, the
    session id without flags, FF or 00, and duration 0. *)
Theorem C50_one_report_partial func send d sid b : aget "sessionID" d = Some (VB 6 sid) -> 0 <= sid < 64 ->
  let m := VObj (CMsg m_Supervision_Get) d in func (getattr m "command") = Ok b ->
  exists rep, supervised func send m = ([getattr m "command"], [rep], do _ <- send rep; Ok b) /\ compose rep = Ok [108; 2; sid; if b then 255 else 0; 0].
Proof. exact (NodeProofs.supervised_get func send d sid b). Qed.
Print Assumptions C50_one_report_partial.
Theorem C50_unsupervised func send m : (forall d, m <> VObj (CMsg m_Supervision_Get) d) -> (forall s d, m = VObj (CMsg s) d -> In s registry) -> supervised func send m = ([m], [], func m).
Proof. exact (NodeProofs.supervised_plain func send m). Qed.
Print Assumptions C50_unsupervised.
Example C50_example : exists d, decode [108; 1; 137; 3; 32; 1; 255] = Ok (VObj (CMsg m_Supervision_Get) d) /\ aget "sessionID" d = Some (VB 6 9) /\
  getattr (VObj (CMsg m_Supervision_Get) d) "command" = VObj (CMsg m_Basic_Set) [("value", VI false 1 255)].
Proof. eexists. split; [vm_compute; reflexivity|]. vm_compute. auto. Qed.

(** ** C51 *)
Theorem C51_coalesce es a e b n : no_overlap es -> es = a ++ e :: b -> notices es a n ->
  match e with
  | Lock => n = 0%nat
  | Update => (held a -> n = 0%nat) /\ (~ held a -> n = 1%nat)
  | Unlock => (dirty a -> n = 1%nat) /\ (~ dirty a -> n = 0%nat)
  end.
Proof. exact (NodeProofs.lock_notices es a e b n). Qed.
Print Assumptions C51_coalesce.
Example C51_example : lock_run Clean [Update; Lock; Update; Update; Unlock; Lock; Unlock] = [1; 0; 0; 0; 1; 0; 0]%nat.
Proof. reflexivity. Qed.

(** ** C52 *)
(** False: taking a second lock forgets the update made under the first; releasing the inner lock ends the outer one *)
Theorem C52_lost_refuted : lock_run Clean [Lock; Update; Lock; Unlock; Unlock] = [0; 0; 0; 0; 0]%nat.
Proof. reflexivity. Qed.
Print Assumptions C52_lost_refuted.
Theorem C52_early_refuted : lock_run Clean [Lock; Lock; Unlock; Update; Unlock] = [0; 0; 0; 1; 0]%nat.
Proof. reflexivity. Qed.
Print Assumptions C52_early_refuted.
(** In every sequence, an update after which no further lock is taken before the next release is notified at once or at that
    release. *)
Theorem C52_overlap_partial es a x b n m : es = a ++ Update :: x ++ Unlock :: b -> ~ In Lock x -> ~ In Unlock x -> notices es a n -> notices es (a ++ Update :: x) m -> n = 1%nat \/ m = 1%nat.
Proof. exact (NodeProofs.lock_last_chance es a x b n m). Qed.
Print Assumptions C52_overlap_partial.
Example C52_example : notices [Lock; Lock; Update; Unlock; Unlock] [Lock; Lock] 0 /\ notices [Lock; Lock; Update; Unlock; Unlock] [Lock; Lock; Update] 1.
Proof. split; reflexivity. Qed.

(** ** C57 *)
(** whatever the listeners do: plain listeners are called in registration order before speak returns; coroutine listeners are
    started in registration order *)
Theorem C57_all_called ls : called (speak 0 ls) = positions calls_now ls /\ started (speak 0 ls) = positions calls_later ls.
Proof. exact (NodeProofs.speak_calls ls). Qed.
Print Assumptions C57_all_called.
Example C57_example : called (speak 0 [Answers (Err EOther); Later (Ok true); Ignores; Answers (Ok false); Later (Err EKey)]) = [0; 3]%nat /\
  started (speak 0 [Answers (Err EOther); Later (Ok true); Ignores; Answers (Ok false); Later (Err EKey)]) = [1; 4]%nat.
Proof. split; reflexivity. Qed.
