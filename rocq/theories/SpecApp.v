(** Vocabulary for C69-C71: what an observer of the application, its adapter and its listeners sees. *)
From Coq Require Import String ZArith List Bool.
From Verif Require Import Py Schema Registry Codec Waiter Conn NodeM AppM.
Import ListNotations.
Open Scope list_scope.
Open Scope string_scope.
Open Scope list_scope.
Open Scope Z_scope.

(** the table: which object is known for a node and end point (0 is the node itself) *)
Definition entry (s : app) (k : key) : option nat := dget key_eqb k (a_tab s).
Definition object (s : app) (k : key) : option nobj := match entry s k with Some i => nth_error (a_objs s) i | None => None end.

Definition who (o : aobs) : nat :=
  match o with OCalled t _ | OQuery t _ | OAnswer t _ _ | OTell t _ | OHandle t _ _ _ | ODel t _ | OPut t _ _ | ODone t _ => t end.
(** calls that can change the table *)
Definition changes (c : acall) : bool := match c with AUpdate | AStartup | ALoad _ => true | _ => false end.
(** during [b], no task but [t] that could change the table does anything; [tr] is everything so far *)
Definition unmixed (t : nat) (tr b : list aobs) : Prop := forall o c, In o b -> who o <> t -> In (OCalled (who o) c) tr -> changes c = false.
(** during [b], the tasks that act and could change the table are updates begun in [b]; [tr] is everything so far *)
Definition only_updates (tr b : list aobs) : Prop :=
  forall o c, In o b -> In (OCalled (who o) c) tr -> changes c = true -> c = AUpdate /\ In (OCalled (who o) AUpdate) b.
(** every task that receives a node list receives one with the members of [l] *)
Definition one_list (b : list aobs) (l : list Z) : Prop := forall u l', In (OAnswer u QNodes (ANodes l')) b -> forall r, In r l' <-> In r l.
(** everything task [t] did *)
Definition deeds (t : nat) (tr : list aobs) : list aobs := filter (fun o => Nat.eqb (who o) t) tr.
(** what the awaits of task [t] returned or raised, in order *)
Definition results (t : nat) (es : list aevent) : list (res answer) := flat_map (fun e => match e with EAnswer u r => if Nat.eqb u t then [r] else [] | _ => [] end) es.
(** the adapter does not change its own id meanwhile *)
Definition same_id (es : list aevent) : Prop := forall z, ~ In (EMe z) es.
(** what task [t] told the listeners, in order *)
Fixpoint told (t : nat) (tr : list aobs) : list news :=
  match tr with
  | [] => []
  | OTell t' w :: tr' => if Nat.eqb t' t then w :: told t tr' else told t tr'
  | _ :: tr' => told t tr'
  end.
Definition unless_nil {A} (l : list A) (w : news) : list news := match l with [] => [] | _ => [w] end.

(** the objects of node [r] are built from the adapter's answers to [t] *)
Definition as_reported (t : nat) (b : list aobs) (s : app) (r : Z) : Prop :=
  exists cls bas gen spc lis c, In (OAnswer t (QInfo r) (AInfo cls bas gen spc lis)) b /\ new_node cls = Ok c /\ object s (r, 0) = Some (mkO r 0 c bas gen spc lis None) /\
    if supports c 96 then
      exists n, In (OAnswer t (QCount r) (ACount n)) b /\
        forall e, 1 <= e <= n -> exists cls' gen' spc' c', In (OAnswer t (QCap r e) (ACap cls' gen' spc')) b /\ new_node cls' = Ok c' /\
          object s (r, e) = Some (mkO r e c' 0 gen' spc' false (entry s (r, 0)))
    else forall n, ~ In (OAnswer t (QCount r) (ACount n)) b.

(** everything the listeners are to be told when the adapter passes on message [m] (C77); 6 is the status DONE of a removal *)
Definition has_value (v : val) (z : Z) : bool := match v with VI _ _ x => x =? z | _ => false end.
Definition report_news (m : val) : list news :=
  if is_msg m_Zip_ZipPacket m then
    let c := getattr m "command" in
    if is_msg m_NetworkManagementInclusion_NodeAddStatus c then [WAddStatus c]
    else if is_msg m_NetworkManagementInclusion_NodeRemoveStatus c then WRemoveStatus c :: if has_value (getattr c "status") 6 && has_value (getattr c "nodeID") 0 then [WNodeZero; WNodesZero] else []
    else match c with VNone => [] | _ => [WMessage c] end
  else [].
(** whether the message counts as handled: status reports do, other commands if a listener said so *)
Definition report_handled (m : val) (bs : list bool) : bool :=
  is_msg m_Zip_ZipPacket m &&
  let c := getattr m "command" in
  (is_msg m_NetworkManagementInclusion_NodeAddStatus c || is_msg m_NetworkManagementInclusion_NodeRemoveStatus c || match c with VNone => false | _ => existsb (fun b => b) bs end).
