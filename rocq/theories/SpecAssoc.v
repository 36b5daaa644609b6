(** Vocabulary for the interviews of associations and sensors. *)
From Coq Require Import String ZArith List Bool.
From Verif Require Import Py Schema Codec Conn NodeReq NodeM CmdClass AssocM.
Import ListNotations.
Open Scope list_scope.
Open Scope string_scope.
Open Scope list_scope.
Open Scope Z_scope.

Definition ptrace := list (Z * pobs).
Definition byte (b : Z) : Prop := 0 <= b < 256.
(** what the node sent arrived as bytes *)
Definition from_wire (tr : ptrace) : Prop := forall n m r, In (n, PONet (NRecv m r)) tr -> exists bs, Forall byte bs /\ decode bs = Ok m.

(** the command [q] is [w] on the wire *)
Fixpoint same_bytes (a b : list Z) : bool :=
  match a, b with [], [] => true | x :: a', y :: b' => (x =? y) && same_bytes a' b' | _, _ => false end.
Definition says (q : val) (w : list Z) : bool := match compose q with Ok l => same_bytes l w | Err _ => false end.
(** the questions: how many groups, who is in group [i], which sensors, which scales of sensor [k]; nodes with multi channel associations are asked for these *)
Definition count_question : list Z := [133; 5].
Definition group_question (c : classes) (i : Z) : list Z := [if dmem Z.eqb 142 (n_supported c) then 142 else 133; 2; i].
Definition sensor_question : list Z := [49; 1].
Definition scale_question (k : Z) : list Z := [49; 3; k].
Definition group_report (c : classes) : Z := (if dmem Z.eqb 142 (n_supported c) then 142 else 133) * 256 + 3.
Definition scale_report : Z := 49 * 256 + 6.

(** the messages returned to requests whose command is [w], in order; [open] are such requests made before *)
Fixpoint answers_in (w : list Z) (open : list nat) (tr : ptrace) : list val :=
  match tr with
  | [] => []
  | (_, POAsk _ u q) :: tr' => answers_in w (if says q w then u :: open else open) tr'
  | (_, PONet (NRet u (RMsg m))) :: tr' => if existsb (Nat.eqb u) open then m :: answers_in w open tr' else answers_in w open tr'
  | _ :: tr' => answers_in w open tr'
  end.
Definition answers (w : list Z) (tr : ptrace) : list val := answers_in w [] tr.
(** the number in field [f] *)
Definition number (f : string) (m : val) : list Z := match getattr m f with VI _ _ z | VB _ z => [z] | _ => [] end.
(** what [m] says about group [i]: how many members it can have, and which it has *)
Definition about (i : Z) (m : val) : list group :=
  match number "groupingIdentifier" m, number "maxNodesSupported" m with
  | [j], [mx] => if j =? i then [mkG mx (match getattr m "nodes" with VNodes l => l | _ => [] end)] else []
  | _, _ => []
  end.
(** the node said it has a group [i] *)
Definition counted (i : Z) (tr : ptrace) : bool := existsb (fun n => (1 <=? i) && (i <=? n)) (flat_map (number "supportedGroupings") (answers count_question tr)).
(** what is known about group [i], having started with [gs] *)
Definition known_group (c : classes) (gs : groupings) (i : Z) (tr : ptrace) : option group :=
  if dmem Z.eqb i gs || counted i tr
  then Some (last (flat_map (about i) (answers (group_question c i) tr)) (match dget Z.eqb i gs with Some g => g | None => mkG 0 [] end))
  else None.
Definition known_scales (ts : list (Z * Z)) (k : Z) (tr : ptrace) : option Z :=
  last (map Some (flat_map (number "scaleBitMask") (answers (scale_question k) tr))) (dget Z.eqb k ts).

(** [m] was returned to a request [w], in this order: asked, acknowledged, received, returned *)
Definition fresh_answer (w : list Z) (h : Z) (m : val) (tr : ptrace) : Prop :=
  exists t u q n1 n2 n3 n4 a b c d e, says q w = true /\ hid m = h /\
    tr = a ++ (n1, POAsk t u q) :: b ++ (n2, PONet (NSent u (Ok true))) :: c ++ (n3, PONet (NRecv m (Ok true))) :: d ++ (n4, PONet (NRet u (RMsg m))) :: e.

(** what task [t] asked, what it sent, and what its questions got *)
Definition questions (t : nat) (tr : ptrace) : list val := flat_map (fun x => match x with (_, POAsk t' _ q) => if Nat.eqb t' t then [q] else [] | _ => [] end) tr.
Definition sends (t : nat) (tr : ptrace) : list val := flat_map (fun x => match x with (_, POSend t' q) => if Nat.eqb t' t then [q] else [] | _ => [] end) tr.
Definition got_back (t : nat) (w : list Z) (r : result) (tr : ptrace) : Prop := exists n n' u q, In (n, POAsk t u q) tr /\ says q w = true /\ In (n', PONet (NRet u r)) tr.
(** the questions are, in order: for the number of groups, and for the groups [ks] *)
Definition asks_groups (c : classes) (qs : list val) (ks : list Z) : Prop :=
  exists q0 qs', qs = q0 :: qs' /\ says q0 count_question = true /\ Forall2 (fun q k => byte k -> says q (group_question c k) = true) qs' ks.
Definition asks_scales (qs : list val) (ks : list Z) : Prop :=
  exists q0 qs', qs = q0 :: qs' /\ says q0 sensor_question = true /\ Forall2 (fun q k => byte k -> says q (scale_question k) = true) qs' ks.

(** reports without the fields that are read from them *)
Definition cut (f : string) (m : val) : Prop := getattr m f = VNone.
(** why the interview of associations in task [t] failed with [e]: its first question, the command that sets up the lifeline or the question after it failed; another question
    failed in another way than by time out; a report was cut short; or another such interview was there *)
Definition assoc_cause (c : classes) (t : nat) (e : exn) (tr : ptrace) : Prop :=
  got_back t count_question (RExc e) tr \/
  (exists n n' u q, In (n, POAsk t u q) tr /\ In (n', PONet (NRet u (RExc e))) tr /\ (e <> ETimeout \/ sends t tr <> [])) \/
  (exists n, In (n, POSent t (Err e)) tr) \/
  (e = EType /\ exists n n' u q m, In (n, POAsk t u q) tr /\ In (n', PONet (NRet u (RMsg m))) tr /\ (cut "supportedGroupings" m \/ cut "maxNodesSupported" m)) \/
  (e = ERuntime /\ exists n t', t' <> t /\ In (n, POCall t' PAssoc) tr).
Definition sensor_cause (t : nat) (e : exn) (tr : ptrace) : Prop :=
  (exists n n' u q, In (n, POAsk t u q) tr /\ In (n', PONet (NRet u (RExc e))) tr) \/
  (e = EType /\ exists n n' u q m, In (n, POAsk t u q) tr /\ In (n', PONet (NRet u (RMsg m))) tr /\ (cut "bitMask" m \/ cut "scaleBitMask" m)).

(** questions of the family [Q] do not overlap: until one is over no other is asked *)
Definition one_at_a_time (Q : Z -> list Z) (tr : ptrace) : Prop := forall a n t u q i b n' r c, tr = a ++ (n, POAsk t u q) :: b ++ (n', PONet (NRet u r)) :: c -> says q (Q i) = true ->
  forall n2 t2 u2 q2 i2, In (n2, POAsk t2 u2 q2) b -> says q2 (Q i2) = false.
(** the question of this family asked last *)
Definition last_question (Q : Z -> list Z) (tr : ptrace) (i : Z) : Prop :=
  exists a n t u q b, tr = a ++ (n, POAsk t u q) :: b /\ says q (Q i) = true /\ forall n2 t2 u2 q2 i2, In (n2, POAsk t2 u2 q2) b -> says q2 (Q i2) = false.
(** the node's reports of type [h] are about what was asked last, as field [f] tells *)
Definition prompt_node (Q : Z -> list Z) (h : Z) (f : string) (tr : ptrace) : Prop := forall a n m r b, tr = a ++ (n, PONet (NRecv m r)) :: b -> hid m = h ->
  exists i, last_question Q a i /\ number f m = [i].

(** what sets up the lifeline *)
Definition lifeline_command (c : classes) : list Z :=
  if dmem Z.eqb 96 (n_supported c) && dmem Z.eqb 142 (n_supported c) then [142; 1; 1; 0; 1; 0] else [133; 1; 1; 1].
Definition plus (c : classes) : Prop := dmem Z.eqb 94 (n_supported c) = true.
Definition controller_in (l : list (Z * option Z)) : Prop := In (1, None) l \/ In (1, Some 0) l.
(** the controller is missing from group 1 *)
Definition needed (c : classes) (gs : groupings) : Prop := plus c /\ exists g, dget Z.eqb 1 gs = Some g /\ ~ controller_in (g_nodes g).

(** the reports about group [i] that were received, the members they list one after the other, and the reports that say that none follows *)
Definition reports (c : classes) (i : Z) (tr : ptrace) : list val :=
  flat_map (fun x => match x with (_, PONet (NRecv m _)) => if (hid m =? group_report c) && match number "groupingIdentifier" m with [j] => j =? i | _ => false end then [m] else [] | _ => [] end) tr.
Definition members (c : classes) (i : Z) (tr : ptrace) : list (Z * option Z) := flat_map (fun m => match getattr m "nodes" with VNodes l => l | _ => [] end) (reports c i tr).
Definition final (m : val) : bool := match number "reportsToFollow" m with [z] => z =? 0 | _ => true end.
(** the node told who is in group [i] once, in one report or in several *)
Definition told_once (c : classes) (i : Z) (tr : ptrace) : Prop := exists l m, reports c i tr = l ++ [m] /\ final m = true /\ forallb (fun m => negb (final m)) l = true.
(** the interviews of associations that were started *)
Definition assoc_calls (tr : ptrace) : list nat := flat_map (fun x => match x with (_, POCall t PAssoc) => [t] | _ => [] end) tr.
(** after it sent a command task [t] got the answer [m] to a question for group 1 *)
Definition back (c : classes) (t : nat) (m : val) (tr : ptrace) : Prop := exists a n q b, tr = a ++ (n, POSend t q) :: b /\ got_back t (group_question c 1) (RMsg m) b.
