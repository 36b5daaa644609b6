(** Message encoding and decoding: pyzwave/message.py, pyzwave/util.py (AttributesMixin), pyzwave/types.py and
    the parse_ and compose_ methods of pyzwave/commandclass. *)
From Coq Require Import String ZArith List Bool.
From Verif Require Import Py BitStream Schema Registry.
Import ListNotations.
Open Scope list_scope.
Open Scope Z_scope.

(* ------------------------------------------------------------------------------------------------ *)
(** * Conversions done by the attribute types *)

(** [int(v)].  Simplification: [int] of a byte string (which python parses as text) and of an arbitrary user
    object with [__int__] are not modelled. *)
Definition to_int (v : val) : res Z :=
  match v with
  | VBool b => Ok (if b then 1 else 0)
  | VInt z | VI _ _ z | VU _ z | VDelay z => Ok z
  | VB _ z | VF z => Ok z                        (* types.py l.220-221 __int__ *)
  | VIPv6 z => Ok z
  | VStr s => py_int s
  | VFloat m p | VFloatT m p _ _ => Ok (Z.quot m (10 ^ p))
  | VPBytes _ | VBytes _ => Err EUnmodelled
  | _ => Err EType
  end.

(** [isinstance(v, int)] *)
Definition is_int (v : val) : bool :=
  match v with VBool _ | VInt _ | VI _ _ _ | VU _ _ | VDelay _ => true | _ => false end.

(** python's [iter(v)] as a list *)
Definition iter_val (v : val) : res (list val) :=
  match v with
  | VList l | VTuple l => Ok l
  | VPBytes bs | VBytes bs => Ok (map VInt bs)
  | VStr s => Ok (map (fun c => VStr [c]) s)
  | VDict l | VHdr l | VMeta l | VMaint l => Ok (map (fun kv => VInt (fst kv)) l)
  | VNodes l => Ok (map (fun ne => VTuple [VInt (fst ne);
                                           match snd ne with Some e => VInt e | None => VNone end]) l)
  | VNodeList l | VSensors l => Ok (map VInt l)
  | _ => Err EType
  end.

Fixpoint map_res {A B} (f : A -> res B) (l : list A) : res (list B) :=
  match l with
  | [] => Ok []
  | x :: l' => do y <- f x; do ys <- map_res f l'; Ok (y :: ys)
  end.

(** [bytes(v)] *)
Definition to_pybytes (v : val) : res (list Z) :=
  match v with
  | VPBytes bs | VBytes bs => Ok bs
  | VBool _ | VInt _ | VI _ _ _ | VU _ _ | VDelay _ =>
      do n <- to_int v;
      if n <? 0 then Err EValue else Ok (repeat 0 (Z.to_nat n))
  | VStr _ => Err EType
  | _ =>
      do l <- iter_val v;
      do zs <- map_res (fun x => if is_int x then to_int x else Err EType) l;
      if forallb is_byte zs then Ok zs else Err EValue
  end.

(** A python set: insertion order kept, duplicates dropped. *)
Definition set_add (z : Z) (l : list Z) : list Z := if existsb (Z.eqb z) l then l else l ++ [z].

(** [set(v)] for integer elements *)
Definition to_set (v : val) : res (list Z) :=
  do l <- iter_val v;
  do zs <- map_res (fun x => if is_int x then to_int x else Err EUnmodelled) l;
  Ok (fold_left (fun acc z => set_add z acc) zs []).

(** [hasattr(t, "__setstate__")] (no type in python has one unless the class defines it) *)
Definition has_setstate (t : aty) : bool :=
  match t with TDsk | TNodes | THdr | TMeta | TMsg => true | _ => false end.

(** [hasattr(t, "default")]: message.py l.29.  types.py l.239, l.329; Association.py l.26; Zip.py l.188 *)
Definition has_default (t : aty) : bool :=
  match t with TRes _ | TBytes | TNodes | THdr => true | _ => false end.

(** [isinstance(v, t)].  The enum wrappers (types.py l.275-291) are not told apart from their base type: they
    only change [repr]. *)
Definition isinst (v : val) (t : aty) : bool :=
  match t, v with
  | TInt sg sz, VI sg' sz' _ => Bool.eqb sg sg' && Nat.eqb sz sz'
  | TUb n, VU n' _ => n =? n'
  | TFlag, VF _ => true
  | TBytes, VBytes _ => true
  | TStrT, VStr _ | TStr, VStr _ => true
  | TList, VList _ | TList, VNodes _ => true
  | TPyInt, _ => is_int v
  | TFloat, VFloatT _ _ _ _ => true
  | TDsk, VDsk _ => true
  | TIPv6, VIPv6 _ => true
  | TNodes, VNodes _ => true
  | TNodeList, VNodeList _ => true
  | TSensors, VSensors _ => true
  | THdr, VHdr _ => true
  | TMeta, VMeta _ => true
  | TMsg, VObj (CMsg _) _ | TMsg, VObj CPure _ | TMsg, VObj (CUnknown _) _ => true
  | TOptData, VMaint _ | TOptData, VDelay _ | TOptData, VOptData | TOptData, VObj CEncap _ => true
  | _, _ => false
  end.

(** types.py l.355-370 dsk_t.__setstate__, on a fresh (empty) key *)
Definition dsk_of_word (w : Z) : list Z := [Z.land (Z.shiftr w 8) 255; Z.land w 255].
Definition dsk_setstate (v : val) : res val :=
  match v with
  | VPBytes bs | VBytes bs =>
      if (zlen bs =? 16) || (zlen bs =? 0) then Ok (VDsk bs) else Err EValue
  | VStr s =>
      let fields := split 45 s in
      if negb (zlen fields =? 8) then Ok (VDsk [])
      else do ws <- map_res py_int fields; Ok (VDsk (flat_map dsk_of_word ws))
  | _ => Err EAttribute     (* no attribute 'split' *)
  end.

(** Association.py l.46-57 Nodes.__setstate__.  Simplification: an endpoint given as something else than an
    integer or None inside a tuple is not modelled (python keeps it untouched). *)
Definition node_of_val (v : val) : res (Z * option Z) :=
  match v with
  | VTuple [n; e] =>
      do n' <- to_int n;
      match e with
      | VNone => Ok (n', None)
      | _ => if is_int e then do e' <- to_int e; Ok (n', Some e') else Err EUnmodelled
      end
  | VTuple _ => Err EValue
  | VStr s =>
      if existsb (Z.eqb 58) s then
        match split_on 58 s [] with
        | n :: rest => do e' <- py_int (join [58] rest); do n' <- py_int n; Ok (n', Some e')
        | [] => Err EValue
        end
      else do n' <- py_int s; Ok (n', None)
  | _ => if is_int v then do n' <- to_int v; Ok (n', None) else Err EType
  end.
Definition nodes_setstate (v : val) : res val :=
  do l <- iter_val v; do ns <- map_res node_of_val l; Ok (VNodes ns).

(** [state.items()] *)
Definition items (v : val) : res (list (Z * val)) :=
  match v with
  | VDict l | VHdr l | VMeta l | VMaint l => Ok l
  | _ => Err EAttribute
  end.

(** CommandClass.py l.47-59 VarDictAttribute.__setstate__ / __setitem__ *)
Fixpoint vardict_setstate (key_ok : Z -> bool) (coerce : val -> res val) (l acc : list (Z * val))
  : res (list (Z * val)) :=
  match l with
  | [] => Ok acc
  | (k, v) :: l' =>
      if key_ok k then
        do v' <- coerce v;
        vardict_setstate key_ok coerce l' (dset Z.eqb k v' acc)
      else Err EValue
  end.

(** Zip.py l.141-148 ZIPPacketOptionType *)
Definition option_type_ok (k : Z) : bool := (1 <=? k) && (k <=? 5).
(** Zip.py l.32-43 IMEType *)
Definition ime_type_ok (k : Z) : bool := (0 <=? k) && (k <=? 8).
(** NodeProvisioning.py l.16-28 MetadataExtensionType *)
Definition meta_type_ok (k : Z) : bool := ((0 <=? k) && (k <=? 3)) || ((50 <=? k) && (k <=? 55)).

(** Zip.py l.183: values must be ZIPPacketOptionData; [ZIPPacketOptionData(value)] is a TypeError *)
Definition optdata_coerce (v : val) : res val :=
  if isinst v TOptData then Ok v else Err EType.
(** NodeProvisioning.py l.31: values are bytes *)
Definition meta_coerce (v : val) : res val :=
  match v with
  | VPBytes _ | VBytes _ => Ok v
  | _ => do bs <- to_pybytes v; Ok (VPBytes bs)
  end.

(** [x = t(); x.__setstate__(v)] for types with [has_setstate] *)
Definition setstate (t : aty) (v : val) : res val :=
  match t with
  | TDsk => dsk_setstate v
  | TNodes => nodes_setstate v
  | THdr => do l <- items v; do d <- vardict_setstate option_type_ok optdata_coerce l []; Ok (VHdr d)
  | TMeta => do l <- items v; do d <- vardict_setstate meta_type_ok meta_coerce l []; Ok (VMeta d)
  | TMsg => Ok (VObj CPure [])     (* util.py l.111-120 with attributes = () *)
  | _ => Err EUnmodelled
  end.

(** [t(v)] *)
Definition construct (t : aty) (v : val) : res val :=
  match t with
  | TInt sg sz => do z <- to_int v; Ok (VI sg sz z)
  | TUb n => do z <- to_int v; Ok (VU n z)
  | TBits n | TRes n => do z <- to_int v; Ok (VB n z)     (* types.py l.214-215 *)
  | TFlag => do z <- to_int v; Ok (VF (Z.land z 1))       (* types.py l.254-255 *)
  | TBytes => do bs <- to_pybytes v; Ok (VBytes bs)
  | TStrT | TStr =>
      match v with
      | VStr s => Ok (VStr s)
      | VInt z => Ok (VStr (str_of_Z z))
      | _ => Err EUnmodelled                              (* repr of other objects *)
      end
  | TList => do l <- iter_val v; Ok (VList l)
  | TPyInt => do z <- to_int v; Ok (VInt z)
  | TFloat =>                                             (* types.py l.297-304 *)
      match v with
      | VFloat m p | VFloatT m p _ _ => Ok (VFloatT m p 1 0)
      | VStr _ => Err EUnmodelled
      | _ => if is_int v then do z <- to_int v; Ok (VFloatT z 0 1 0) else Err EType
      end
  | TIPv6 =>
      match v with
      | VPBytes bs | VBytes bs => if zlen bs =? 16 then Ok (VIPv6 (from_bytes_u bs)) else Err EValue
      | VIPv6 z => Ok (VIPv6 z)
      | VStr _ => Err EUnmodelled
      | _ => if is_int v then
               do z <- to_int v;
               if (0 <=? z) && (z <? 2 ^ 128) then Ok (VIPv6 z) else Err EValue
             else Err EValue
      end
  | TNodeList => do l <- to_set v; Ok (VNodeList l)
  | TSensors => do l <- to_set v; Ok (VSensors l)
  | TOptData => Err EType
  | TDsk | TNodes | THdr | TMeta | TMsg => Err EUnmodelled  (* never called: has_setstate *)
  end.

(** [t( *v)] for a tuple; util.py l.100-101.  Only float_t is ever given a tuple by this code base. *)
Definition construct_star (t : aty) (l : list val) : res val :=
  match t, l with
  | TFloat, [VFloat m p; VInt size; VInt scale] => Ok (VFloatT m p size scale)
  | _, [v] => construct t v
  | _, _ => Err EUnmodelled
  end.

(** [isinstance(v, AttributesMixin)] *)
Definition is_mixin (v : val) : bool := match v with VObj _ _ => true | _ => false end.

(** util.py l.26-33: conversion of a constructor argument *)
Definition init_coerce (t : aty) (v : val) : res val :=
  if is_mixin v then Ok v
  else if has_setstate t then setstate t v
  else construct t v.

(** util.py l.94-103: conversion of an assigned value *)
Definition setattr_coerce (t : aty) (v : val) : res val :=
  if isinst v t then Ok v
  else if has_setstate t then setstate t v
  else match v with
       | VTuple l => construct_star t l
       | _ => construct t v
       end.

(* ------------------------------------------------------------------------------------------------ *)
(** * Encoding *)

Definition class_attrs (c : cls) : list attr :=
  match c with
  | CMsg s => s_attrs s
  | CPure | CUnknown _ => []
  | CEncap => sub_Zip_ZIPPacketOptionEncapsulationFormatInfo
  | CRoute => sub_Zip_IMELastWorkingRoute
  | COption => sub_Zip_ZIPPacketOption
  | CGroupInfo => sub_AssociationGrpInfo_GroupInfoGroupType
  end.

(** [hasattr(v, "serialize")]: message.py l.40.  (AttributesMixin objects answer None for any name, so they
    "have" it: util.py l.69-78.) *)
Definition has_serialize (v : val) : bool :=
  match v with
  | VI _ _ _ | VU _ _ | VB _ _ | VF _ | VBytes _ | VDsk _ | VIPv6 _ | VNodes _ | VHdr _ | VDelay _
  | VObj _ _ => true
  | _ => false
  end.

(** Association.py l.59-74 Nodes.serialize *)
Definition nodes_plain (l : list (Z * option Z)) : list Z :=
  flat_map (fun ne => match snd ne with None => [fst ne] | Some _ => [] end) l.
Definition nodes_multi (l : list (Z * option Z)) : list Z :=
  flat_map (fun ne => match snd ne with None => [] | Some e => [fst ne; e] end) l.
Definition has_multi (l : list (Z * option Z)) : bool :=
  existsb (fun ne => match snd ne with Some _ => true | None => false end) l.
Definition nodes_serialize (l : list (Z * option Z)) (w : writer) : res writer :=
  do w1 <- wextend (nodes_plain l) w;
  if has_multi l then
    do w2 <- wappend 0 w1;       (* MULTI_CHANNEL_ASSOCIATION_SET_MARKER_V2 = 0x00 *)
    wextend (nodes_multi l) w2
  else Ok w1.

(** [v.serialize(stream)] for values other than objects: types.py l.118-120, 147-188, 231-233, 241-243,
    372-374, 395-397; Association.py l.59; Zip.py l.195-196 *)
Definition serialize_simple (v : val) (w : writer) : res writer :=
  match v with
  | VI sg sz z => addBytes z (Z.of_nat sz) sg w
  | VDelay z => addBytes z 3 true w
  | VU n z | VB n z => addBits z n w
  | VF z => addBits z 1 w
  | VBytes bs | VDsk bs => wextend bs w
  | VIPv6 z => wextend (be_bytes 16 z) w
  | VNodes l => nodes_serialize l w
  | VHdr _ => Ok w
  | _ => Err EUnmodelled                 (* no serialize method; excluded by has_serialize *)
  end.

(** message.py l.29-32: an attribute that has not been set is encoded with its type's default, if any *)
Definition serialize_default (t : aty) (w : writer) : res writer :=
  match t with
  | TRes n => addBits 0 n w
  | TBytes => wextend [] w
  | TNodes => nodes_serialize [] w
  | THdr => Ok w
  | _ => Err EAttribute
  end.

(** Configuration.py l.106-108 Set.compose_value *)
Definition run_chook (h : chook) (d : adict) (w : writer) : res writer :=
  match h with
  | HCfgSetValue =>
      match aget "value" d, aget "size" d with
      | Some v, Some s =>
          if is_int v && is_int s then
            do zv <- to_int v; do zs <- to_int s; addBytes zv zs false w
          else Err EUnmodelled
      | _, _ => Err EAttribute
      end
  end.

(** message.py l.27-42: one iteration of the loop in compose.  [sers] gives, for each set attribute, what
    calling its [serialize] does. *)
Definition compose_attr (d : adict) (sers : list (string * (writer -> res writer))) (a : attr) (w : writer)
  : res writer :=
  match aget (a_name a) d with
  | None => serialize_default (a_ty a) w
  | Some v =>
      match a_compose a with
      | Some h => run_chook h d w
      | None =>
          if has_serialize v then
            match dget String.eqb (a_name a) sers with
            | Some f => f w
            | None => Err EUnmodelled
            end
          else Err EValue                 (* "Cannot encode" *)
      end
  end.

Fixpoint compose_attrs (d : adict) (sers : list (string * (writer -> res writer))) (l : list attr) (w : writer)
  : res writer :=
  match l with
  | [] => Ok w
  | a :: l' => do w' <- compose_attr d sers a w; compose_attrs d sers l' w'
  end.

(** message.py l.18-43 compose, given the serializers of the attribute values *)
Definition compose_with (s : schema) (d : adict) (sers : list (string * (writer -> res writer))) : res (list Z) :=
  do w1 <- addBytes (s_cls s) 1 false new_writer;
  do w2 <- addBytes (s_cmd s) 1 false w1;
  do w3 <- compose_attrs d sers (s_attrs s) w2;
  Ok (w_buf w3).

(** [v.serialize(stream)]; for messages message.py l.45-47 *)
Fixpoint serialize (v : val) (w : writer) {struct v} : res writer :=
  match v with
  | VObj (CMsg s) d =>
      do bs <- compose_with s d (map (fun p => match p with (n, x) => (n, serialize x) end) d);
      wextend bs w
  | VObj CPure _ | VObj (CUnknown _) _ => wextend [] w
  | VObj _ _ => Err EType                 (* 'NoneType' object is not callable *)
  | _ => serialize_simple v w
  end.

Definition sers_of (d : adict) : list (string * (writer -> res writer)) :=
  map (fun p => match p with (n, x) => (n, serialize x) end) d.

(** message.py l.18-43 compose *)
Definition compose (v : val) : res (list Z) :=
  match v with
  | VObj (CMsg s) d => compose_with s d (sers_of d)
  | VObj CPure _ | VObj (CUnknown _) _ => Ok []
  | _ => Err EType
  end.

(** message.py l.93-99, l.112-113 hid *)
Definition hid (v : val) : Z :=
  match v with
  | VObj (CMsg s) _ => s_hid s
  | VObj (CUnknown h) _ => h
  | _ => 0
  end.

Definition is_message (v : val) : bool := isinst v TMsg.

Definition dec_eqb (m1 p1 m2 p2 : Z) : bool := m1 * 10 ^ p2 =? m2 * 10 ^ p1.

Fixpoint list_eqb {A} (eqb : A -> A -> bool) (l1 l2 : list A) : bool :=
  match l1, l2 with
  | [], [] => true
  | x :: l1', y :: l2' => eqb x y && list_eqb eqb l1' l2'
  | _, _ => false
  end.

(** [dsk_t.__getstate__], types.py l.341-347 (16 byte and empty keys; an odd length would be an IndexError) *)
Definition pad5 (s : pystr) : pystr := repeat 48 (5 - List.length s) ++ s.
Fixpoint dsk_words (bs : list Z) : res (list Z) :=
  match bs with
  | [] => Ok []
  | a :: b :: r => do ws <- dsk_words r; Ok (Z.lor (Z.shiftl a 8) b :: ws)
  | _ => Err EIndex
  end.
Definition dsk_text (bs : list Z) : res pystr :=
  do ws <- dsk_words bs; Ok (join [45] (map (fun w => pad5 (str_of_Z w)) ws)).

(** python [a == b].  Simplification: identity is not modelled, so two BitsBase values (whose [__eq__],
    types.py l.217-218, answers NotImplemented) are never equal, and neither are two other AttributesMixin
    objects.  Containers are compared elementwise. *)
Fixpoint py_eq (a b : val) {struct a} : res bool :=
  match a, b with
  | VObj _ _, _ =>
      if is_message a then
        if is_message b then
          do x <- compose a; do y <- compose b; Ok (list_eqb Z.eqb x y)   (* message.py l.49-52 *)
        else Ok false
      else Ok false
  | (VB _ x | VF x), _ => if is_int b then do y <- to_int b; Ok (x =? y) else Ok false
  | (VFloat m p | VFloatT m p _ _), (VFloat m' p' | VFloatT m' p' _ _) => Ok (dec_eqb m p m' p')
  | (VPBytes x | VBytes x), (VPBytes y | VBytes y) => Ok (list_eqb Z.eqb x y)
  | VStr x, VStr y => Ok (list_eqb Z.eqb x y)
  | VStr x, VDsk y => do t <- dsk_text y; Ok (list_eqb Z.eqb t x)
  | VDsk x, VStr y => do t <- dsk_text x; Ok (list_eqb Z.eqb t y)
  | VDsk x, VDsk y => do t <- dsk_text x; do u <- dsk_text y; Ok (list_eqb Z.eqb t u)
  | VIPv6 x, VIPv6 y => Ok (x =? y)
  | VNone, VNone => Ok true
  | VList x, VList y | VTuple x, VTuple y =>
      (fix go (l1 l2 : list val) : res bool :=
         match l1, l2 with
         | [], [] => Ok true
         | u :: l1', v :: l2' => do r <- py_eq u v; if r then go l1' l2' else Ok false
         | _, _ => Ok false
         end) x y
  | VNodes x, VNodes y =>
      Ok (list_eqb (fun p q => (fst p =? fst q) &&
                               match snd p, snd q with
                               | None, None => true | Some u, Some v => u =? v | _, _ => false
                               end) x y)
  | VNodeList x, VNodeList y | VSensors x, VSensors y =>
      Ok (forallb (fun z => existsb (Z.eqb z) y) x && forallb (fun z => existsb (Z.eqb z) x) y)
  | (VDict x | VHdr x | VMeta x | VMaint x), (VDict y | VHdr y | VMeta y | VMaint y) =>
      if negb (zlen x =? zlen y) then Ok false
      else
        (fix go (l : list (Z * val)) : res bool :=
           match l with
           | [] => Ok true
           | (k, v) :: l' =>
               match dget Z.eqb k y with
               | None => Ok false
               | Some v' => do r <- py_eq v v'; if r then go l' else Ok false
               end
           end) x
  | _, _ =>
      if is_int a then
        match b with
        | VB _ y | VF y => do x <- to_int a; Ok (x =? y)
        | VFloat m p | VFloatT m p _ _ => do x <- to_int a; Ok (dec_eqb x 0 m p)
        | _ => if is_int b then do x <- to_int a; do y <- to_int b; Ok (x =? y) else Ok false
        end
      else
        match a with
        | VFloat m p | VFloatT m p _ _ => if is_int b then do y <- to_int b; Ok (dec_eqb m p y 0) else Ok false
        | _ => Ok false
        end
  end.

(* ------------------------------------------------------------------------------------------------ *)
(** * Objects *)

(** First attribute with that name in an attributes tuple: util.py l.90-92 *)
Fixpoint find_attr (name : string) (l : list attr) : option attr :=
  match l with
  | [] => None
  | a :: l' => if String.eqb name (a_name a) then Some a else find_attr name l'
  end.

(** util.py l.89-109 __setattr__ for a name that is one of the attributes.  The second component tells whether
    [attributeUpdated] is called (with the new value). *)
Definition setattr (attrs : list attr) (name : string) (v : val) (d : adict) : res (adict * option val) :=
  match find_attr name attrs with
  | None => Ok (d, None)     (* plain python attribute; not part of _attributes *)
  | Some a =>
      do v' <- setattr_coerce (a_ty a) v;
      match aget name d with
      | None => Ok (aset name v' d, Some v')
      | Some old =>
          do same <- py_eq old v';
          if same then Ok (d, None) else Ok (aset name v' d, Some v')
      end
  end.

(** util.py l.18-33 __init__: [kw] holds the keyword arguments *)
Fixpoint init_attrs (l : list attr) (kw : adict) (d : adict) : res adict :=
  match l with
  | [] => Ok d
  | a :: l' =>
      match aget (a_name a) kw with
      | None => init_attrs l' kw d
      | Some v => do v' <- init_coerce (a_ty a) v; init_attrs l' kw (aset (a_name a) v' d)
      end
  end.

(** [MsgCls( **kw)] *)
Definition new_msg (s : schema) (kw : adict) : res val :=
  do d <- init_attrs (s_attrs s) kw []; Ok (VObj (CMsg s) d).

(** message.py l.54-62 Message.__getattr__; the value of a missing attribute is its type's default, else None *)
Definition default_val (t : aty) : val :=
  match t with
  | TRes _ => VInt 0
  | TBytes => VPBytes []
  | TNodes => VList []
  | THdr => VDict []
  | _ => VNone
  end.
Definition getattr (v : val) (name : string) : val :=
  match v with
  | VObj c d =>
      match aget name d with
      | Some x => x
      | None => match find_attr name (class_attrs c) with
                | Some a => default_val (a_ty a)
                | None => VNone
                end
      end
  | _ => VNone
  end.

(** [bool(v)] *)
Definition truthy (v : val) : bool :=
  match v with
  | VNone => false
  | VBool b => b
  | VInt z | VI _ _ z | VU _ z | VDelay z | VF z => negb (z =? 0)
  | VPBytes l | VBytes l | VStr l | VNodeList l | VSensors l => negb (zlen l =? 0)
  | VList l | VTuple l => negb (zlen l =? 0)
  | VDict l | VHdr l | VMeta l | VMaint l => negb (zlen l =? 0)
  | VNodes l => negb (zlen l =? 0)
  | VFloat m _ | VFloatT m _ _ _ => negb (m =? 0)
  | VB _ _ | VDsk _ | VIPv6 _ | VOptData | VObj _ _ => true
  end.

(* ------------------------------------------------------------------------------------------------ *)
(** * Decoding *)

(** util.py l.54-67 parseAttributes, given how to run a parse_ method and a type's deserialize *)
Section Parse.
  Variable hk : phook -> adict -> reader -> res (val * reader).
  Variable ds : aty -> reader -> res (val * reader).
  Variable all : list attr.

  Fixpoint parse_attrs (todo : list attr) (d : adict) (r : reader) : res (adict * reader) :=
    match todo with
    | [] => Ok (d, r)
    | a :: todo' =>
        if bytesLeft r =? 0 then Ok (d, r)
        else
          do (v, r') <- match a_parse a with
                        | Some h => hk h d r
                        | None => ds (a_ty a) r
                        end;
          do (d', _) <- setattr all (a_name a) v d;
          parse_attrs todo' d' r'
    end.
End Parse.

(** NetworkManagementProxy.py l.36-45 NodeList.deserialize *)
Definition bit_ids (base b : Z) : list Z :=
  flat_map (fun j => if negb (Z.land b (Z.shiftl 1 j) =? 0) then [base + j + 1] else [])
           [0; 1; 2; 3; 4; 5; 6; 7].
Fixpoint nodelist_loop (n : nat) (i : Z) (acc : list Z) (r : reader) : res (list Z * reader) :=
  match n with
  | O => Ok (acc, r)
  | S n' =>
      do (bs, r') <- rvalue 1 r;
      nodelist_loop n' (i + 1) (fold_left (fun a z => set_add z a) (bit_ids (i * 8) (from_bytes_u bs)) acc) r'
  end.
Definition nodelist_deserialize (r : reader) : res (list Z * reader) := nodelist_loop 28 0 [] r.

(** SensorMultilevel.py l.26-46 SensorType *)
Definition sensor_types : list Z := [1; 2; 3; 4; 5; 6; 9; 11; 12; 14; 15; 17; 19; 27; 30; 31; 35; 40].
(** SensorMultilevel.py l.55-66 SensorSupported.deserialize; the fuel is the number of bits *)
Fixpoint sensors_loop (fuel : nat) (value i : Z) (acc : list Z) : res (list Z) :=
  match fuel with
  | O => Ok acc
  | S f =>
      if value <=? 0 then Ok acc
      else
        do acc' <- (if Z.land value 1 =? 1 then
                      if existsb (Z.eqb i) sensor_types then Ok (set_add i acc) else Err EValue
                    else Ok acc);
        sensors_loop f (Z.shiftr value 1) (i + 1) acc'
  end.
Definition sensors_deserialize (r : reader) : res (list Z * reader) :=
  let (bs, r') := remaining r in
  do l <- sensors_loop (8 * List.length bs) (from_bytes_u bs) 1 []; Ok (l, r').

(** Association.py l.76-92 Nodes.deserialize: the part before the marker, then pairs *)
Fixpoint nodes_pairs (data : list Z) : res (list (Z * option Z)) :=
  match data with
  | [] => Ok []
  | n :: e :: data' => do t <- nodes_pairs data'; Ok ((n, Some e) :: t)
  | [_] => Err EIndex
  end.
Fixpoint nodes_decode (data : list Z) : res (list (Z * option Z)) :=
  match data with
  | [] => Ok []
  | n :: data' =>
      if n =? 0 then nodes_pairs data'
      else do t <- nodes_decode data'; Ok ((n, None) :: t)
  end.
Definition nodes_val (l : list (Z * option Z)) : val :=
  VList (map (fun ne => VTuple [VInt (fst ne); match snd ne with Some e => VInt e | None => VNone end]) l).

(** NodeProvisioning.py l.34-43 MetadataExtension.deserialize *)
Fixpoint meta_loop (fuel : nat) (acc : list (Z * val)) (r : reader) : res (list (Z * val) * reader) :=
  match fuel with
  | O => if bytesLeft r =? 0 then Ok (acc, r) else Err EFuel
  | S f =>
      if bytesLeft r =? 0 then Ok (acc, r)
      else
        do (ty, r1) <- rbits 7 r;
        do (_, r2) <- rbit r1;
        do (len, r3) <- rbyte r2;
        do (bs, r4) <- rvalue len r3;
        meta_loop f (dset Z.eqb ty (VPBytes bs) acc) r4
  end.

(** types.py l.311-320 float_t.deserialize *)
Definition float_deserialize (r : reader) : res (val * reader) :=
  do (precision, r1) <- rbits 3 r;
  do (scale, r2) <- rbits 2 r1;
  do (size, r3) <- rbits 3 r2;
  do (bs, r4) <- rvalue size r3;
  Ok (VTuple [VFloat (from_bytes_s bs) precision; VInt size; VInt scale], r4).

(** types.py l.381-389 dsk_t.deserializeN *)
Definition dsk_deserializeN (n : Z) (r : reader) : res (val * reader) :=
  if n =? 0 then Ok (VPBytes [], r)
  else if negb (n =? 16) then Err EValue
  else do (bs, r') <- rvalue n r; Ok (VPBytes bs, r').

(** [attrType.deserialize(stream)] for types whose values do not contain messages or header extensions.
    types.py l.96-100, 113-116, 142-188, 226-229, 245-248, 311-320, 376-379, 399-402 *)
Definition ds0 (t : aty) (r : reader) : res (val * reader) :=
  match t with
  | TInt sg sz => do (bs, r') <- rvalue (Z.of_nat sz) r; Ok (VI sg sz (from_bytes sg bs), r')
  | TUb n | TBits n | TRes n => do (z, r') <- rbits n r; Ok (VInt z, r')
  | TFlag => do (z, r') <- rbits 1 r; Ok (VInt z, r')
  | TBytes => let (bs, r') := remaining r in Ok (VPBytes bs, r')
  | TStrT =>
      do (len, r1) <- rbyte r;
      do (bs, r2) <- rvalue len r1;
      do s <- utf8 bs; Ok (VStr s, r2)
  | TFloat => float_deserialize r
  | TDsk => dsk_deserializeN 16 r
  | TIPv6 => do (bs, r') <- rvalue 16 r; Ok (VIPv6 (from_bytes_u bs), r')
  | TNodes => let (bs, r') := remaining r in do l <- nodes_decode bs; Ok (nodes_val l, r')
  | TNodeList => do (l, r') <- nodelist_deserialize r; Ok (VNodeList l, r')
  | TSensors => do (l, r') <- sensors_deserialize r; Ok (VSensors l, r')
  | TMeta => do (l, r') <- meta_loop (Z.to_nat (bytesLeft r)) [] r; Ok (VDict l, r')
  | TStr | TList | TPyInt | TOptData => Err EAttribute   (* the type has no deserialize *)
  | THdr | TMsg => Err EUnmodelled                       (* see below *)
  end.

Definition hk0 (h : phook) (d : adict) (r : reader) : res (val * reader) := Err EUnmodelled.

(** parseAttributes of an object whose attributes need no hooks *)
Definition parse_sub (c : cls) (r : reader) : res (val * reader) :=
  do (d, r') <- parse_attrs hk0 ds0 (class_attrs c) (class_attrs c) [] r; Ok (VObj c d, r').

(** Zip.py l.46-106, l.121-123: the value of one information element *)
Definition ime_load (ty : Z) (bs : list Z) : res val :=
  let r := new_reader bs in
  match ty with
  | 0 | 4 | 5 => do (b, _) <- rvalue 1 r; Ok (VI false 1 (from_bytes_u b))
  | 1 => do (b, _) <- rvalue 2 r; Ok (VI false 2 (from_bytes_u b))
  | 2 => do (o, _) <- parse_sub CRoute r; Ok o
  | _ => Ok (VBytes (fst (remaining r)))
  end.

(** Zip.py l.114-124 ZIPPacketOptionMaintenanceReport.deserialize *)
Fixpoint maint_loop (fuel : nat) (acc : list (Z * val)) (r : reader) : res (list (Z * val)) :=
  match fuel with
  | O => if bytesLeft r =? 0 then Ok acc else Err EFuel
  | S f =>
      if bytesLeft r =? 0 then Ok acc
      else
        do (ty, r1) <- rbyte r;
        if negb (ime_type_ok ty) then Err EValue
        else
          do (len, r2) <- rbyte r1;
          do (bs, r3) <- rvalue len r2;
          do v <- ime_load ty bs;
          maint_loop f (dset Z.eqb ty v acc) r3
  end.

(** Zip.py l.160-180 ZIPPacketOption.parse_optionData *)
Definition parse_optionData (d : adict) (r : reader) : res (val * reader) :=
  do (len, r1) <- rbyte r;
  do (data, r2) <- rvalue len r1;
  match aget "optionType" d with
  | Some v =>
      do ty <- to_int v;
      match ty with
      | 3 => do l <- maint_loop (List.length data) [] (new_reader data); Ok (VMaint l, r2)
      | 4 => do (o, _) <- parse_sub CEncap (new_reader data); Ok (o, r2)
      | 1 => do (bs, _) <- rvalue 3 (new_reader data); Ok (VDelay (from_bytes_s bs), r2)
      | _ => Err EAttribute       (* ZIPPacketOptionData has no deserialize *)
      end
  | None => Err EAttribute
  end.

Definition hk1 (h : phook) (d : adict) (r : reader) : res (val * reader) :=
  match h with HOptData => parse_optionData d r | _ => Err EUnmodelled end.

(** Zip.py l.198-208 HeaderExtension.deserialize: the loop; a missing optionData is
    [ZIPPacketOptionData()] (util.py l.69-78) *)
Fixpoint hdr_loop (fuel : nat) (acc : list (Z * val)) (r : reader) : res (list (Z * val)) :=
  match fuel with
  | O => if bytesLeft r >? 0 then Err EFuel else Ok acc
  | S f =>
      if bytesLeft r >? 0 then
        do (d, r') <- parse_attrs hk1 ds0 sub_Zip_ZIPPacketOption sub_Zip_ZIPPacketOption [] r;
        match aget "optionType" d with
        | Some t =>
            do ty <- to_int t;
            hdr_loop f (dset Z.eqb ty (match aget "optionData" d with Some v => v | None => VOptData end) acc) r'
        | None => Err EUnmodelled
        end
      else Ok acc
  end.
Definition hdr_deserialize (r : reader) : res (val * reader) :=
  do (len, r1) <- rbyte r;
  do (bs, r2) <- rvalue (len - 1) r1;
  do l <- hdr_loop (List.length bs) [] (new_reader bs);
  Ok (VDict l, r2).

(** AssociationGrpInfo.py l.80-92 GroupCommandListReport.parse_commandClass *)
Fixpoint agi_cmd_loop (fuel : nat) (i len : Z) (acc : list val) (r : reader) : res (list val * reader) :=
  match fuel with
  | O => Ok (acc, r)
  | S f =>
      if i <? len then
        do (c, r1) <- rbyte r;
        do (m, r2) <- rbyte r1;
        agi_cmd_loop f (i + 2) len (acc ++ [VList [VInt c; VInt m]]) r2
      else Ok (acc, r)
  end.

(** AssociationGrpInfo.py l.133-140 GroupInfoReport.parse_groups *)
Fixpoint agi_groups_loop (n : nat) (acc : list val) (r : reader) : res (list val * reader) :=
  match n with
  | O => Ok (acc, r)
  | S n' => do (g, r') <- parse_sub CGroupInfo r; agi_groups_loop n' (acc ++ [g]) r'
  end.

(** [int(self.name)] inside a parse_ method.  A missing attribute is None: TypeError *)
Definition int_attr (name : string) (d : adict) : res Z :=
  match aget name d with Some v => to_int v | None => Err EType end.

Section Message.
  (** [dec bs]: Message.decode of an embedded command; [dsm r]: Message.deserialize on the same stream *)
  Variable dsm : reader -> res (val * reader).

  (** the parse_ methods *)
  Definition hk2 (h : phook) (d : adict) (r : reader) : res (val * reader) :=
    match h with
    | HNodeFailing =>                       (* Mailbox.py l.70-79 *)
        let r1 := if bytesLeft r =? 16 then advance (8 * 15) r else r in
        do (b, r2) <- rbyte r1; Ok (VInt b, r2)
    | HSupCommand =>                        (* Supervision.py l.26-30 *)
        do (len, r1) <- rbyte r;
        do (bs, r2) <- rvalue len r1;
        do (m, _) <- dsm (new_reader bs); Ok (m, r2)
    | HHeaderExt =>                         (* Zip.py l.258-264 *)
        match aget "headerExtIncluded" d with
        | Some v => if truthy v then hdr_deserialize r else Ok (VDict [], r)
        | None => Ok (VDict [], r)
        end
    | HNodeAddCC =>                         (* NetworkManagementInclusion.py l.239-246 *)
        do n <- int_attr "nodeInfoLength" d;
        if n - 7 >? bytesLeft r then let (bs, r') := remaining r in Ok (VList (map VInt bs), r')
        else do (bs, r') <- rvalue (n - 7) r; Ok (VList (map VInt bs), r')
    | HAgiCmdList =>
        do (len, r1) <- rbyte r;
        do (l, r2) <- agi_cmd_loop (Z.to_nat len) 0 len [] r1; Ok (VList l, r2)
    | HAgiGroups =>
        do n <- int_attr "groupCount" d;
        do (l, r') <- agi_groups_loop (Z.to_nat n) [] r; Ok (VList l, r')
    | HIterDsk =>                           (* NodeProvisioning.py l.91-93 *)
        do n <- int_attr "dskLengthN" d; dsk_deserializeN n r
    | HCfgValue =>                          (* Configuration.py l.87-89 *)
        do n <- int_attr "size" d;
        do (bs, r') <- rvalue n r; Ok (VInt (from_bytes_u bs), r')
    | HOptData => Err EUnmodelled
    end.

  Definition ds2 (t : aty) (r : reader) : res (val * reader) :=
    match t with
    | TMsg => dsm r
    | THdr => hdr_deserialize r
    | _ => ds0 t r
    end.
End Message.

(** ZWaveMessage.get(hid): the registered class *)
Definition lookup (h : Z) : option schema := find (fun s => s_hid s =? h) registry.

(** message.py l.77-91 deserialize.  [fuel] bounds the nesting of messages; [decode] supplies enough. *)
Fixpoint deserialize (fuel : nat) (r : reader) : res (val * reader) :=
  match fuel with
  | O => Err EFuel
  | S f =>
      if bytesLeft r <? 2 then Ok (VObj (CUnknown 0) [], r)
      else
        do (c, r1) <- rbyte r;
        do (m, r2) <- rbyte r1;
        let h := Z.lor (Z.shiftl c 8) (Z.land m 255) in
        match lookup h with
        | Some s =>
            do (d, r3) <- parse_attrs (hk2 (deserialize f)) (ds2 (deserialize f)) (s_attrs s) (s_attrs s) [] r2;
            Ok (VObj (CMsg s) d, r3)
        | None => Ok (VObj (CUnknown h) [], r2)
        end
  end.

(** message.py l.72-75 decode *)
Definition decode (bs : list Z) : res val :=
  do (m, _) <- deserialize (S (List.length bs)) (new_reader bs); Ok m.

(** Zip.py l.266-289 ZipPacket.response *)
Definition zip_response (v : val) (success nackWaiting nackQueueFull nackOptionError : bool) : res val :=
  new_msg m_Zip_ZipPacket
    [ ("ackRequest"%string, VBool false)
    ; ("ackResponse"%string, VBool success)
    ; ("nackResponse"%string, VBool (negb success))
    ; ("nackWaiting"%string, VBool nackWaiting)
    ; ("nackQueueFull"%string, VBool nackQueueFull)
    ; ("nackOptionError"%string, VBool nackOptionError)
    ; ("headerExtIncluded"%string, VBool false)
    ; ("zwCmdIncluded"%string, VBool false)
    ; ("moreInformation"%string, VBool false)
    ; ("secureOrigin"%string, getattr v "secureOrigin")
    ; ("seqNo"%string, getattr v "seqNo")
    ; ("sourceEP"%string, getattr v "destEP")
    ; ("destEP"%string, getattr v "sourceEP")
    ; ("command"%string, VNone) ].
