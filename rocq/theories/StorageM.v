(** Persistent storage: persistantstorage.py YamlStorage, CommandClass.py __getstate__/__setstate__, util.py
    AttributesMixin.__getstate__/__setstate__, Association.py/AssociationGrpInfo.py Groupings.

    PyYAML is not modelled character by character.  [yaml] is dump followed by load with BaseLoader: the same tree
    with every scalar turned into its text, mappings in key order (sort_keys) and tags ignored.
    Python version: before 3.11 (there plain int and list objects have no __getstate__). *)
From Coq Require Import String Ascii ZArith List Bool.
From Verif Require Import Py Schema Codec Text.
Import ListNotations.
Open Scope list_scope.
Open Scope string_scope.
Open Scope list_scope.
Open Scope Z_scope.

(** ** Plain python data given to yaml.dump, and what BaseLoader returns *)
Inductive py :=
| PInt (z : Z) | PBool (b : bool) | PStr (s : pystr) | PList (l : list py)
| PIDict (d : list (Z * py)) | PSDict (d : list (string * py)).
Inductive ytree := YText (s : pystr) | YSeq (l : list ytree) | YMap (d : list (pystr * ytree)).

Fixpoint chars (s : string) : pystr :=
  match s with EmptyString => [] | String a s' => Z.of_nat (nat_of_ascii a) :: chars s' end.

(** sorted(mapping.items()): keys are distinct *)
Section Sort.
  Context {A : Type} (leb : A -> A -> bool).
  Fixpoint insert (x : A) (l : list A) : list A :=
    match l with [] => [x] | y :: l' => if leb x y then x :: l else y :: insert x l' end.
  Fixpoint isort (l : list A) : list A := match l with [] => [] | x :: l' => insert x (isort l') end.
End Sort.
Definition by_number {A} (a b : Z * A) : bool := fst a <=? fst b.
Definition by_name {A} (a b : string * A) : bool := String.leb (fst a) (fst b).

(** yaml.load(yaml.dump(v), Loader=BaseLoader) *)
Fixpoint yaml (v : py) : ytree :=
  match v with
  | PInt z => YText (str_of_Z z)
  | PBool b => YText (chars (if b then "true" else "false"))
  | PStr s => YText s
  | PList l => YSeq (map yaml l)
  | PIDict d => YMap (map (fun e => (str_of_Z (fst e), snd e)) (isort by_number (map (fun e => (fst e, yaml (snd e))) d)))
  | PSDict d => YMap (map (fun e => (chars (fst e), snd e)) (isort by_name (map (fun e => (fst e, yaml (snd e))) d)))
  end.

(** ** Attribute values and declarations *)
Inductive sval :=
| SInt (z : Z)                         (* int, uint8_t, uint16_t *)
| SText (s : pystr)                    (* str *)
| SNodes (l : list (Z * option Z))     (* Association.Nodes *)
| SList (l : list py)                  (* list *)
| SDict (d : list (Z * sval))          (* VarDictAttribute, Groupings *)
| SObj (d : list (string * sval)).     (* DictAttribute: its _attributes *)
Inductive styp :=
| AInt | AText | ANodes | AList | ADict (t : styp) | AObj (attrs : list (string * styp)).

(** The attributes declared by the command classes: Association.py l.99-102 l.133, AssociationGrpInfo.py l.26-35 l.170,
    Configuration.py l.111-114 l.123, ManufacturerSpecific.py l.17-21, SensorMultilevel.py l.158, Version.py l.20-26,
    ZwavePlusInfo.py l.17-23.  The other command classes declare none. *)
Definition stored (id : Z) : list (string * styp) :=
  if id =? 133 then [("groupings", ADict (AObj [("maxNodes", AInt); ("nodes", ANodes)]))]
  else if id =? 89 then [("groupings", ADict (AObj [("name", AText); ("profile", AInt); ("commands", AList)]))]
  else if id =? 112 then [("parameters", ADict (AObj [("value", AInt); ("size", AInt)]))]
  else if id =? 114 then [("manufacturerID", AInt); ("productTypeID", AInt); ("productID", AInt)]
  else if id =? 49 then [("supportedTypes", ADict AInt)]
  else if id =? 134 then [("zwaveLibraryType", AInt); ("zwaveProtocolVersion", AInt); ("zwaveProtocolSubVersion", AInt);
                          ("applicationVersion", AInt); ("applicationSubVersion", AInt)]
  else if id =? 94 then [("zwavePlusVersion", AInt); ("roleType", AInt); ("nodeType", AInt);
                         ("installerIconType", AInt); ("userIconType", AInt)]
  else [].

(** ** __getstate__: util.py l.80-87, CommandClass.py l.44-45, types.py l.93-94 l.110-111, Association.py l.37-44 l.116-117,
    AssociationGrpInfo.py l.41-42 *)
Fixpoint getstate (v : sval) : py :=
  match v with
  | SInt z => PInt z
  | SText s => PStr s
  | SNodes l => PList (map (fun p => PStr (node_text p)) l)
  | SList l => PList l
  | SDict d => PIDict (map (fun e => (fst e, getstate (snd e))) d)
  | SObj d => PSDict (map (fun e => (fst e, getstate (snd e))) d)
  end.

(** what BaseLoader returned, seen as python data again *)
Fixpoint py_of (y : ytree) : py :=
  match y with
  | YText s => PStr s
  | YSeq l => PList (map py_of l)
  | YMap _ => PList []           (* mappings inside list attributes: not used *)
  end.

Fixpoint pystr_eqb (a b : pystr) : bool :=
  match a, b with [], [] => true | x :: a', y :: b' => (x =? y) && pystr_eqb a' b' | _, _ => false end.

(** ** __setstate__: util.py l.111-120, CommandClass.py l.47-59, Association.py l.46-57 l.119-123, AssociationGrpInfo.py l.44-48.
    Simplification: str(), list() and attribute lookups on trees of another kind than the declared one ([EUnmodelled]). *)
Fixpoint setstate (t : styp) (y : ytree) : res sval :=
  match t with
  | AInt => match y with YText s => do z <- py_int s; Ok (SInt z) | _ => Err EType end
  | AText => match y with YText s => Ok (SText s) | _ => Err EUnmodelled end
  | AList => match y with YSeq l => Ok (SList (map py_of l)) | _ => Err EUnmodelled end
  | ANodes => match y with
              | YSeq l => do ns <- map_res (fun y => match y with YText s => node_of_val (VStr s) | _ => Err EType end) l;
                          Ok (SNodes ns)
              | _ => Err EUnmodelled
              end
  | ADict t' =>
      match y with
      | YMap d =>
          (fix go (d : list (pystr * ytree)) (acc : list (Z * sval)) : res sval :=
             match d with
             | [] => Ok (SDict acc)
             | (k, y') :: d' => do k' <- py_int k; do v <- setstate t' y'; go d' (dset Z.eqb k' v acc)
             end) d []
      | _ => Err EAttribute                                     (* no attribute 'items' *)
      end
  | AObj attrs =>
      match y with
      | YMap d =>
          (fix go (attrs : list (string * styp)) (acc : list (string * sval)) : res sval :=
             match attrs with
             | [] => Ok (SObj acc)
             | (n, t') :: attrs' =>
                 match dget pystr_eqb (chars n) d with
                 | None => go attrs' acc
                 | Some y' => do v <- setstate t' y'; go attrs' (dset String.eqb n v acc)
                 end
             end) attrs []
      | _ => Err EUnmodelled
      end
  end.

(** ** One command class *)
Record cls := mkCls { c_version : Z; c_interviewed : bool; c_attrs : list (string * sval) }.
Definition cls0 : cls := mkCls 0 false [].                                   (* CommandClass.py l.97-102 *)
(** l.196-200 *)
Definition cls_getstate (c : cls) : py :=
  PSDict (map (fun e => (fst e, getstate (snd e))) (c_attrs c) ++ [("interviewed", PBool (c_interviewed c)); ("version", PInt (c_version c))]).
(** util.py l.111-120 on the command class itself: what was set before an exception stays set *)
Fixpoint set_attrs (attrs : list (string * styp)) (d : list (pystr * ytree)) (c : cls) : cls * option exn :=
  match attrs with
  | [] => (c, None)
  | (n, t) :: attrs' =>
      match dget pystr_eqb (chars n) d with
      | None => set_attrs attrs' d c
      | Some y => match setstate t y with
                  | Err e => (c, Some e)
                  | Ok v => set_attrs attrs' d (mkCls (c_version c) (c_interviewed c) (dset String.eqb n v (c_attrs c)))
                  end
      end
  end.
(** l.202-205 *)
Definition cls_setstate (attrs : list (string * styp)) (y : ytree) (c : cls) : cls * option exn :=
  match y with
  | YMap d =>
      match match dget pystr_eqb (chars "version") d with None => Ok 0 | Some (YText s) => py_int s | Some _ => Err EType end with
      | Err e => (c, Some e)
      | Ok v =>
          let i := match dget pystr_eqb (chars "interviewed") d with
                   | None => false
                   | Some (YText s) => negb (zlen s =? 0)                    (* bool() of a text *)
                   | Some (YSeq l) => negb (zlen l =? 0)
                   | Some (YMap l) => negb (zlen l =? 0)
                   end in
          set_attrs attrs d (mkCls v i (c_attrs c))
      end
  | _ => (c, Some EAttribute)                                                (* no attribute 'get' *)
  end.

(** ** Files *)
(** node.supported: command class id to command class *)
Definition supported := list (Z * cls).
(** A node settings file: written completely, or cut off after [n] parts of the text have reached the disk *)
Inductive file := Whole (v : py) | Part (v : py) (n : nat).
Definition disk := list (pystr * file).
(** persistantstorage.py l.61-63 with node.py l.216-219 *)
Definition node_id (n e : Z) : pystr := str_of_Z n ++ chars ":" ++ str_of_Z e.
Definition path (base : pystr) (n e : Z) : pystr := base ++ chars "/nodes/" ++ node_id n e ++ chars ".yml".
(** l.46-48 *)
Definition settings (s : supported) : py := PSDict [("supported", PIDict (map (fun e => (fst e, cls_getstate (snd e))) s))].

(** l.49-50: the file after the first [k] disk operations of a save whose text is written in [parts] parts: opening
    truncates, then the parts arrive, then the file is complete *)
Definition saving (old : option file) (s : supported) (parts k : nat) : option file :=
  match k with
  | O => old
  | S k' => if (k' <=? parts)%nat then Some (Part (settings s) k') else Some (Whole (settings s))
  end.
Definition disk_put (p : pystr) (f : option file) (d : disk) : disk :=
  match f with None => d | Some f => dset pystr_eqb p f d end.
(** a save interrupted after [k] disk operations, and a complete one *)
Definition save_cut (base : pystr) (n e : Z) (s : supported) (parts k : nat) (d : disk) : disk :=
  disk_put (path base n e) (saving (dget pystr_eqb (path base n e) d) s parts k) d.
Definition node_updated (base : pystr) (n e : Z) (s : supported) (d : disk) : disk :=
  dset pystr_eqb (path base n e) (Whole (settings s)) d.

(** yaml.load of a file; an empty document is None.  [cut] is what PyYAML makes of a text cut off in the middle. *)
Definition parse (cut : py -> nat -> res (option ytree)) (f : file) : res (option ytree) :=
  match f with
  | Whole v => Ok (Some (yaml v))
  | Part v O => Ok None
  | Part v (S n) => cut v n
  end.
(** l.40-43 *)
Fixpoint load_classes (sup : list (pystr * ytree)) (s : supported) : supported * option exn :=
  match s with
  | [] => ([], None)
  | (id, c) :: s' =>
      match dget pystr_eqb (str_of_Z id) sup with
      | None => let (s', e) := load_classes sup s' in ((id, c) :: s', e)
      | Some y =>
          match cls_setstate (stored id) y c with
          | (c, Some e) => ((id, c) :: s', Some e)
          | (c, None) => let (s', e) := load_classes sup s' in ((id, c) :: s', e)
          end
      end
  end.
(** l.32-43 *)
Definition node_added (cut : py -> nat -> res (option ytree)) (base : pystr) (n e : Z) (d : disk) (s : supported)
  : supported * option exn :=
  match dget pystr_eqb (path base n e) d with
  | None => (s, None)
  | Some f =>
      match parse cut f with
      | Err x => (s, Some x)
      | Ok (Some (YMap m)) =>
          match dget pystr_eqb (chars "supported") m with
          | None => (s, None)
          | Some (YMap sup) => load_classes sup s
          | Some _ => (s, Some EUnmodelled)
          end
      | Ok _ => (s, Some EAttribute)                                         (* None, text and lists have no 'get' *)
      end
  end.
