(** Vocabulary for C118: how many questions a handler of association group information may have. *)
From Coq Require Import String ZArith List Bool.
From Verif Require Import Py Schema Registry Codec StorageM GrpInfoM SpecGrpInfo.
Import ListNotations.
Open Scope list_scope.
Open Scope string_scope.
Open Scope list_scope.
Open Scope Z_scope.

(** groups a report describes *)
Definition described (m : val) : nat := match getattr m "groups" with VList es => List.length es | _ => 0 end.
(** name and commands of each group of a report; the list of groups for an interview; nothing for other reports *)
Definition allowed (c : acall) : nat := match c with CInfo m => 2 * described m | CInterview => 1 | CName _ | CCommands _ => 0 end.
(** the results with which sending ends, told to task [t] *)
Definition told_all (t : nat) (rs : list (res bool)) : list aevent := map (ESent t) rs.
(** the ends of task [t] *)
Definition ends_of (t : nat) (tr : list aobs) : list (res bool) := flat_map (fun o => match o with OEnd t' r => if Nat.eqb t' t then [r] else [] | _ => [] end) tr.
(** results task [t] was told *)
Definition told_to (t : nat) (es : list aevent) : nat := List.length (filter (fun e => match e with ESent t' _ => Nat.eqb t' t | _ => false end) es).
