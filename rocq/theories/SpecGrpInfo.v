(** Vocabulary for association group information. *)
From Coq Require Import String ZArith List Bool.
From Verif Require Import Py Schema Codec GrpInfoM.
Import ListNotations.
Open Scope list_scope.
Open Scope string_scope.
Open Scope list_scope.
Open Scope Z_scope.

(** ** Reports *)
(** [m] reports [n] as the name of group [g] *)
Definition gives_name (m : val) (g : Z) (n : pystr) : Prop := getattr m "groupingIdentifier" = VI false 1 g /\ getattr m "name" = VStr n.
(** [m] reports [l] as the commands of group [g] *)
Definition gives_commands (m : val) (g : Z) (l : list val) : Prop := getattr m "groupingIdentifier" = VI false 1 g /\ getattr m "commandClass" = VList l.
(** the entry [e] of a report is about group [g] with profile [p] *)
Definition entry (e : val) (g p : Z) : Prop :=
  0 <= g < 256 /\ exists d, e = VObj CGroupInfo d /\ aget "groupingIdentifier" d = Some (VI false 1 g) /\ aget "profile" d = Some (VI false 2 p).
(** [m] advertises the groups [gs] (with their profiles), in this order *)
Definition advertises (m : val) (gs : list (Z * Z)) : Prop := exists es, getattr m "groups" = VList es /\ Forall2 (fun e x => entry e (fst x) (snd x)) es gs.
(** reports in which nothing is missing *)
Definition complete (c : acall) : Prop :=
  match c with
  | CName m => exists g n, gives_name m g n
  | CCommands m => exists g l, gives_commands m g l
  | CInfo m => exists gs, advertises m gs
  | CInterview => True
  end.
Definition all_complete (tr : list aobs) : Prop := forall t c, In (OCall t c) tr -> complete c.

(** ** What happened *)
(** the requests sent by task [t], as they are on the wire *)
Definition sends (t : nat) (tr : list aobs) : list (res (list Z)) :=
  flat_map (fun o => match o with OSend t' q => if Nat.eqb t' t then [compose q] else [] | _ => [] end) tr.
(** what a report about the groups [gs] makes the library ask: name and commands of each *)
Definition questions (gs : list (Z * Z)) : list (res (list Z)) := flat_map (fun x => [Ok [89; 1; fst x]; Ok [89; 5; 128; fst x]]) gs.
(** after [a], the library turns to group [g], of which a report says that its profile is [p]: it asks for the name of [g], and this is
    the turn of the corresponding entry (two questions have been asked for each earlier one) *)
Definition turns_to (a : list aobs) (o : aobs) (g p : Z) : Prop :=
  exists t q m gs i, o = OSend t q /\ compose q = Ok [89; 1; g] /\ In (OCall t (CInfo m)) a /\ advertises m gs /\
    List.length (sends t a) = (2 * i)%nat /\ nth_error gs i = Some (g, p).
Definition asks_name (o : aobs) (g : Z) : Prop := exists t q, o = OSend t q /\ compose q = Ok [89; 1; g].
Definition names (g : Z) (o : aobs) (n : pystr) : Prop := exists t m, o = OCall t (CName m) /\ gives_name m g n.
Definition lists (g : Z) (o : aobs) (l : list val) : Prop := exists t m, o = OCall t (CCommands m) /\ gives_commands m g l.
(** [v] is the last value that [P] finds in [tr], or [init] if there is none *)
Definition last_of {V} (P : aobs -> V -> Prop) (init : option V) (tr : list aobs) (v : option V) : Prop :=
  (exists a o b x, tr = a ++ o :: b /\ P o x /\ v = Some x /\ forall o' x', In o' b -> ~ P o' x') \/
  (v = init /\ forall o x, In o tr -> ~ P o x).
(** group [g] is known after [tr] as [r], if it was [r0] before (None: unknown) *)
Definition known_as (g : Z) (r0 : option group) (tr : list aobs) (r : group) : Prop :=
  (exists a o b, tr = a ++ o :: b /\ turns_to a o g (gr_profile r) /\ (forall o', In o' b -> ~ asks_name o' g) /\
     last_of (names g) None b (gr_name r) /\ last_of (lists g) None b (gr_commands r)) \/
  (exists r', r0 = Some r' /\ (forall o, In o tr -> ~ asks_name o g) /\ gr_profile r = gr_profile r' /\
     last_of (names g) (gr_name r') tr (gr_name r) /\ last_of (lists g) (gr_commands r') tr (gr_commands r)).
(** the storage: nothing is written in [tr] *)
Definition unsaved (tr : list aobs) : Prop := ~ In OSaved tr.

(** ** The interview *)
(** what the interview makes of the end of its request *)
Definition interview_answer (r : res bool) : res bool :=
  match r with Ok _ => Ok true | Err ETimeout => Ok false | Err x => Err x end.
(** what marks the class as interviewed or not: an interview starts, or one ends with True *)
Definition marks (tr : list aobs) (o : aobs) (b : bool) : Prop :=
  (exists t, o = OCall t CInterview /\ b = false) \/ (exists t, o = OEnd t (Ok true) /\ In (OCall t CInterview) tr /\ b = true).
