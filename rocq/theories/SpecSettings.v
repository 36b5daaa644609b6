(** Vocabulary for loading a settings file that may not be one of our own: what a file says about a command class. *)
From Coq Require Import String ZArith List Bool.
From Verif Require Import Py Text StorageM SpecStorage.
Import ListNotations.
Open Scope list_scope.
Open Scope string_scope.
Open Scope list_scope.
Open Scope Z_scope.

(** where the settings of an end point are: <base>/nodes/<node>:<end point>.yml *)
Definition place (base : pystr) (n e : Z) : pystr :=
  base ++ chars "/nodes/" ++ str_of_Z n ++ chars ":" ++ str_of_Z e ++ chars ".yml".
(** the file of this end point has the entry [l] under "supported" *)
Definition says (base : pystr) (n e : Z) (d : disk) (l : list (Z * py)) : Prop :=
  exists top, dget pystr_eqb (place base n e) d = Some (Whole (PSDict top)) /\ NoDup (map fst top) /\
    dget String.eqb "supported" top = Some (PIDict l) /\ NoDup (map fst l).
(** what is said about a class can be read: a version, if any, is a number, and the attributes are of their declared kinds *)
Definition readable (id : Z) (st : list (string * py)) : Prop :=
  NoDup (map fst st) /\
  match dget String.eqb "version" st with None | Some (PInt _) => True | _ => False end /\
  forall n t x, In (n, t) (stored id) -> dget String.eqb n st = Some x -> exists v, typed t v /\ x = getstate v.
(** anything but an empty text or collection counts as true; even false does *)
Definition counts (x : py) : bool := match x with PStr [] | PList [] | PIDict [] | PSDict [] => false | _ => true end.
(** lists of numbers come back as lists of texts (C76) *)
Definition comes_back (x : seen) : seen := match x with IsList l => IsList (map (fun v => py_of (yaml v)) l) | x => x end.
(** class [c] becomes [c'] according to [st] *)
Definition set_by (id : Z) (st : list (string * py)) (c c' : cls) : Prop :=
  c_version c' = match dget String.eqb "version" st with Some (PInt z) => z | _ => 0 end /\
  c_interviewed c' = match dget String.eqb "interviewed" st with Some x => counts x | None => false end /\
  (forall n v t, In (n, t) (stored id) -> dget String.eqb n st = Some (getstate v) -> typed t v ->
     forall p, look_class (Attr n :: p) c' = option_map comes_back (look p v)) /\
  (forall n, (dget String.eqb n st = None \/ forall t, ~ In (n, t) (stored id)) -> dget String.eqb n (c_attrs c') = dget String.eqb n (c_attrs c)).
(** the node's classes before and after *)
Definition loaded (l : list (Z * py)) (before after : supported) : Prop :=
  map fst after = map fst before /\
  forall id c, In (id, c) before -> exists c', In (id, c') after /\
    match dget Z.eqb id l with
    | None => c' = c
    | Some (PSDict st) => set_by id st c c'
    | Some _ => False
    end.
Definition all_readable (l : list (Z * py)) (s : supported) : Prop :=
  forall id c x, In (id, c) s -> dget Z.eqb id l = Some x -> exists st, x = PSDict st /\ readable id st.
