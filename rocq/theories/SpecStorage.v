(** Vocabulary for the storage properties. *)
From Coq Require Import String ZArith List Bool.
From Verif Require Import Py StorageM.
Import ListNotations.
Open Scope list_scope.
Open Scope string_scope.
Open Scope list_scope.
Open Scope Z_scope.

(** What is found when following attribute names and dictionary keys into a value *)
Inductive pstep := Attr (n : string) | Key (k : Z).
Inductive seen := IsInt (z : Z) | IsText (s : pystr) | IsNodes (l : list (Z * option Z)) | IsList (l : list py) | IsTable.
Fixpoint look (p : list pstep) (v : sval) : option seen :=
  match p, v with
  | [], SInt z => Some (IsInt z)
  | [], SText s => Some (IsText s)
  | [], SNodes l => Some (IsNodes l)
  | [], SList l => Some (IsList l)
  | [], _ => Some IsTable
  | Key k :: p', SDict d => match dget Z.eqb k d with Some v => look p' v | None => None end
  | Attr n :: p', SObj d => match dget String.eqb n d with Some v => look p' v | None => None end
  | _, _ => None
  end.
Definition look_class (p : list pstep) (c : cls) : option seen := look p (SObj (c_attrs c)).

(** Values python can hold for a declared type: the right kind, distinct keys, node ids not negative *)
Inductive typed : styp -> sval -> Prop :=
| ty_int z : typed AInt (SInt z)
| ty_text s : typed AText (SText s)
| ty_nodes l : (forall n e, In (n, e) l -> 0 <= n /\ match e with Some e => 0 <= e | None => True end) -> typed ANodes (SNodes l)
| ty_list l : typed AList (SList l)
| ty_dict t d : NoDup (map fst d) -> (forall k v, In (k, v) d -> typed t v) -> typed (ADict t) (SDict d)
| ty_obj attrs d : NoDup (map fst d) -> (forall n v, In (n, v) d -> exists t, In (n, t) attrs) ->
    (forall n v t, In (n, v) d -> In (n, t) attrs -> typed t v) -> typed (AObj attrs) (SObj d).
(** a node's command classes: distinct ids, attributes of the declared types *)
Definition node_ok (s : supported) : Prop :=
  NoDup (map fst s) /\ forall id c, In (id, c) s -> typed (AObj (stored id)) (SObj (c_attrs c)).

(** every number in a list turned into its decimal text *)
Fixpoint as_text (v : py) : py :=
  match v with
  | PInt z => PStr (str_of_Z z)
  | PList l => PList (map as_text l)
  | v => v
  end.
(** plain command lists: nested lists of integers *)
Fixpoint plain (v : py) : bool :=
  match v with PInt _ => true | PList l => forallb plain l | _ => false end.

(** the command classes named in C65 *)
Definition c65_classes : list Z := [133; 112; 114; 134; 49; 94].
(** the attributes that have to survive: class and name *)
Definition kept : list (Z * string) :=
  [(133, "groupings"); (89, "groupings"); (112, "parameters"); (114, "manufacturerID"); (114, "productTypeID"); (114, "productID"); (49, "supportedTypes");
   (134, "zwaveLibraryType"); (134, "zwaveProtocolVersion"); (134, "zwaveProtocolSubVersion"); (134, "applicationVersion"); (134, "applicationSubVersion");
   (94, "zwavePlusVersion"); (94, "roleType"); (94, "nodeType"); (94, "installerIconType"); (94, "userIconType")].
