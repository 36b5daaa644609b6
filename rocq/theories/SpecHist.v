(** Vocabulary for C123: what should be left of a node's settings. *)
From Coq Require Import String ZArith List Bool.
From Verif Require Import Py StorageM SpecStorage HistM.
Import ListNotations.
Open Scope list_scope.
Open Scope string_scope.
Open Scope list_scope.
Open Scope Z_scope.

Definition same (n e n' e' : Z) : bool := (n =? n') && (e =? e').
(** the settings saved last under this id *)
Definition last_saved (n e : Z) (tr : list hobs) : option supported :=
  fold_left (fun acc o => match o with WSaved _ n' e' s => if same n e n' e' then Some s else acc | _ => acc end) tr None.
(** the settings the device with this id should have: those saved last, nothing if the id was given up since *)
Definition due (n e : Z) (tr : list hobs) : option supported :=
  fold_left (fun acc o => match o with WSaved _ n' e' s => if same n e n' e' then Some s else acc | WGone _ n' e' => if same n e n' e' then None else acc | _ => acc end) tr None.
(** classes [before] become [after] when settings [s] come back: versions and attributes (see C65); classes that were not saved stay as they are *)
Definition restores (s : option supported) (before after : supported) : Prop :=
  match s with
  | None => after = before
  | Some s => map fst after = map fst before /\ forall id c0, dget Z.eqb id before = Some c0 -> exists c', dget Z.eqb id after = Some c' /\
      match dget Z.eqb id s with
      | None => c' = c0
      | Some c => c_version c' = c_version c /\ (In id c65_classes -> forall p x, look_class p c = Some x -> look_class p c' = Some x)
      end
  end.
(** python's dictionaries and values (see C65); no save of this node is cut off (see C67) *)
Definition sound (n e : Z) (tr : list hobs) : Prop :=
  (forall i s, In (WSaved i n e s) tr -> node_ok s) /\ (forall i before r, In (WLoaded i n e before r) tr -> NoDup (map fst before)) /\ forall i, ~ In (WCut i n e) tr.
(** the object made for a node gets, when it is added, the settings of the device *)
Definition survives (n e : Z) (tr : list hobs) : Prop :=
  forall a i fresh b before after x c, tr = a ++ WNew i n e fresh :: b ++ WLoaded i n e before (after, x) :: c -> x = None /\ restores (due n e a) before after.
