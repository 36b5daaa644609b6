(** C117: interviews of nodes end.  Statements only; proofs are in InterviewLive.v. *)
From Coq Require Import String ZArith List Bool Lia.
From Verif Require Import Py Schema Registry Codec Waiter Conn NodeReq SpecNodeLive InterviewM SpecInterview SpecInterviewLive.
From Verif Require InterviewLive InterviewVisit.
Import ListNotations.
Open Scope list_scope.
Open Scope string_scope.
Open Scope list_scope.
Open Scope Z_scope.

(** ** C117 *)
(** wherever an interview is, it ends by itself: however sending its questions and the interviews left to the environment end, and even if nothing is ever received *)
Theorem C117_ends ids cls es s tr t : iexec (istate0 ids cls) es s tr -> iopen tr t -> forall net own,
  exists es2 s2 tr2 n r, iexec s es2 s2 tr2 /\ Forall (helps t (tr ++ tr2)) es2 /\ outcome net own es2 /\ In (n, ODone t r) tr2.
Proof. intros X O net own. exact (InterviewLive.ends ids cls net own es s tr t X O). Qed.
Print Assumptions C117_ends.
(** it asks for the version of each class and the own questions of three classes at most once *)
Theorem C117_few ids cls es s tr n t c : iexec (istate0 ids cls) es s tr -> In (n, OCall t c) tr ->
  (length (asked t tr) <= due_questions ids c)%nat /\ (length (begun t tr) <= due_others ids c)%nat.
Proof. exact (InterviewLive.few ids cls es s tr n t c). Qed.
Print Assumptions C117_few.
(** with an event loop that does not fall behind it ends in the time its questions and the other interviews take *)
Theorem C117_in_time D E ids cls es s tr n t c : 0 <= D -> 0 <= E -> timely D E (istate0 ids cls) es s tr -> In (n, OCall t c) tr ->
  (forall m r, In (m, ODone t r) tr -> m <= n + allowed D E t tr) /\ ((forall m r, ~ In (m, ODone t r) tr) -> n_now (i_net s) <= n + allowed D E t tr).
Proof. intros D0 E0 X J. exact (InterviewLive.in_time ids cls D E D0 E0 es s tr n t c X J). Qed.
Print Assumptions C117_in_time.
(** which is known beforehand from the list of classes: after that time it is over *)
Theorem C117_in_all D E ids cls es s tr n t c : 0 <= D -> 0 <= E -> timely D E (istate0 ids cls) es s tr -> In (n, OCall t c) tr ->
  let last := n + Z.of_nat (due_questions ids c) * (D + 3000) + Z.of_nat (due_others ids c) * E in
  (forall m r, In (m, ODone t r) tr -> m <= last) /\ (last < n_now (i_net s) -> exists m r, In (m, ODone t r) tr).
Proof. intros D0 E0 X J. exact (InterviewLive.in_all ids cls D E D0 E0 es s tr n t c X J). Qed.
Print Assumptions C117_in_all.

(** a node with four classes: the version class tells its version but not its other numbers, associations are interviewed, sending the version question for class 94 fails,
    and the one for class 37 is not answered *)
Definition x_new (_ : Z) : kcls := k_new.
Definition x_ids : list Z := [134; 133; 94; 37].
Definition x_msg (bs : list Z) : val := match decode bs with Ok m => m | Err _ => VNone end.
Definition x_reply (u : nat) (bs : list Z) : list ievent := [INet (NEvAdvance 40); INet (NEvSent u (Ok true)); INet (NEvMessage (x_msg bs)); INet (NEvResume u)].
Definition x_silence (u : nat) : list ievent := [INet (NEvAdvance 100); INet (NEvSent u (Ok true)); INet (NEvAdvance 3000); INet (NEvTimer u); INet (NEvResume u); INet (NEvResume u)].
Definition x_run : list ievent :=
  [ICall CNode] ++ x_reply 0 [134; 20; 134; 3] ++ x_silence 1 ++ x_reply 2 [134; 20; 133; 2] ++ [INet (NEvAdvance 700); IOwn 0 (Ok None)] ++
  [INet (NEvAdvance 100); INet (NEvSent 3 (Ok false))] ++ x_silence 4.
Definition x_shown : itrace := match irun (istate0 x_ids x_new) x_run with Some (_, tr) => tr | None => [] end.
Definition x_end : istate := match irun (istate0 x_ids x_new) x_run with Some (s, _) => s | None => istate0 x_ids x_new end.
Example C117_case : timely 100 900 (istate0 x_ids x_new) x_run x_end x_shown /\ In (0, OCall 0 CNode) x_shown /\ In (7080, ODone 0 (Ok VNode)) x_shown /\
  visits 0 x_shown = x_ids /\ length (asked 0 x_shown) = 5%nat /\ begun 0 x_shown = [133] /\ due_questions x_ids CNode = 6%nat /\ due_others x_ids CNode = 1%nat /\ allowed 100 900 0 x_shown = 16400.
Proof.
  split; [apply (InterviewLive.timely_ok 100 900 (istate0 x_ids x_new) x_run [] (istate0 x_ids x_new) []); [constructor|vm_compute; reflexivity]|].
  split; [vm_compute; tauto|]. split; [vm_compute; tauto|]. repeat split.
Qed.
(** before that it is open, waiting for a request or for the other interview, and covered by the first statement *)
Example C117_open k : In k [3; 14; 16]%nat -> exists s tr, iexec (istate0 x_ids x_new) (firstn k x_run) s tr /\ iopen tr 0.
Proof.
  intros [<-|[<-|[<-|[]]]]; eexists _, _; (split; [apply InterviewVisit.irun_exec; vm_compute; reflexivity|]); (split; [exists 0, CNode; vm_compute; tauto|]); intros n r J; vm_compute in J; repeat (destruct J as [J|J]; [discriminate J|]); destruct J.
Qed.
