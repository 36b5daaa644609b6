(** Vocabulary for C102: what loading one node amounts to, as a function of the adapter's answers alone. *)
From Coq Require Import String ZArith List Bool.
From Verif Require Import Py Schema Registry Codec Waiter Conn NodeM AppM SpecApp.
Import ListNotations.
Open Scope list_scope.
Open Scope string_scope.
Open Scope list_scope.
Open Scope Z_scope.

(** the questions put to the adapter, the objects made, and how it ended if it did *)
Record plan := mkPlan { asks : list query; makes : list nobj; outcome : option (res unit) }.
Definition after (q : list query) (o : list nobj) (p : plan) : plan := mkPlan (q ++ asks p) (o ++ makes p) (outcome p).
(** the end points [eps] of node [n], whose object is [root], one after the other; [rs] are the answers *)
Fixpoint plan_endpoints (n : Z) (root : nat) (eps : list Z) (rs : list (res answer)) : plan :=
  match eps with
  | [] => mkPlan [] [] (Some (Ok tt))
  | e :: eps' =>
      after [QCap n e] []
        match rs with
        | Ok (ACap cls gen spc) :: rs' =>
            match new_node cls with
            | Ok c => after [] [mkO n e c 0 gen spc false (Some root)] (plan_endpoints n root eps' rs')
            | Err x => mkPlan [] [] (Some (Err x))
            end
        | Err x :: _ => mkPlan [] [] (Some (Err x))
        | _ => mkPlan [] [] None
        end
  end.
Definition upto (c : Z) : list Z := map Z.of_nat (seq 1 (Z.to_nat c)).
(** the node, and its end points if it has the class Multi Channel (96) *)
Definition plan_load (n : Z) (root : nat) (rs : list (res answer)) : plan :=
  after [QInfo n] []
    match rs with
    | Ok (AInfo cls bas gen spc lis) :: rs' =>
        match new_node cls with
        | Ok c =>
            after [] [mkO n 0 c bas gen spc lis None]
              (if supports c 96 then
                 after [QCount n] []
                   match rs' with
                   | Ok (ACount k) :: rs'' => plan_endpoints n root (upto k) rs''
                   | Err x :: _ => mkPlan [] [] (Some (Err x))
                   | _ => mkPlan [] [] None
                   end
               else mkPlan [] [] (Some (Ok tt)))
        | Err x => mkPlan [] [] (Some (Err x))
        end
    | Err x :: _ => mkPlan [] [] (Some (Err x))
    | _ => mkPlan [] [] None
    end.

(** what is read off the deeds of a task *)
Definition asked (tr : list aobs) : list query := flat_map (fun o => match o with OQuery _ q => [q] | _ => [] end) tr.
Definition stored (tr : list aobs) : list (key * nat) := flat_map (fun o => match o with OPut _ k i => [(k, i)] | _ => [] end) tr.
Definition ends (tr : list aobs) : list (res aval) := flat_map (fun o => match o with ODone _ r => [r] | _ => [] end) tr.
(** neither listeners nor node objects are called, and nothing is removed *)
Definition silent (tr : list aobs) : Prop := forall o, In o tr -> match o with OTell _ _ | OHandle _ _ _ _ | ODel _ _ => False | _ => True end.
(** what the writes and removals in [tr] make of an entry of the table *)
Fixpoint play (k : key) (tr : list aobs) (x : option nat) : option nat :=
  match tr with
  | [] => x
  | OPut _ k' i :: tr' => play k tr' (if key_eqb k k' then Some i else x)
  | ODel _ k' :: tr' => play k tr' (if key_eqb k k' then None else x)
  | _ :: tr' => play k tr' x
  end.
(** loading node [n] did what the answers [rs] call for: [ids] are its objects *)
Definition loads_as (n : Z) (rs : list (res answer)) (objs : list nobj) (tr : list aobs) : Prop :=
  exists ids, let p := plan_load n (hd 0%nat ids) rs in
    asked tr = asks p /\ NoDup ids /\ map (nth_error objs) ids = map Some (makes p) /\ stored tr = combine (map o_key (makes p)) ids /\
    ends tr = match outcome p with Some (Ok _) => [Ok (RNodes ids)] | Some (Err e) => [Err e] | None => [] end /\ silent tr.
