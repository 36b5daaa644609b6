(** Vocabulary for command class properties. *)
From Coq Require Import String ZArith List Bool.
From Verif Require Import Py Schema Registry Codec NodeM CmdClass.
Import ListNotations.
Open Scope list_scope.
Open Scope string_scope.
Open Scope list_scope.
Open Scope Z_scope.

(** ** Interviews *)
(** the version of a class is known after the calls [h]: some request for it brought a version other than zero *)
Definition version_known (id : Z) (h : list attempt) : Prop := id <> 0 /\ exists a n, In a h /\ at_version a = Ok n /\ n <> 0.
(** the class's interview ran to its end and did not report failure *)
Definition completes (a : attempt) : Prop := exists r, at_body a = Ok r /\ r <> Some false.

(** ** Associations: the controller is node 1 or endpoint 0 of node 1 *)
Definition controller_in (l : list (Z * option Z)) : Prop := In (1, None) l \/ In (1, Some 0) l.
(** the report [m] lists the members [l] of group [i] *)
Definition lists_members (m : val) (i mx : Z) (l : list (Z * option Z)) : Prop :=
  exists s d a b, m = VObj (CMsg s) d /\ aget "groupingIdentifier" d = Some (VI a b i) /\ (exists x y, aget "maxNodesSupported" d = Some (VI x y mx)) /\ aget "nodes" d = Some (VNodes l).

(** ** Attributes *)
(** [w] is a value of the declared type [t].  A [bits_t] or [reserved_t] class is created anew for each attribute; the width is
    that of the declaration. *)
Definition has_type (t : aty) (w : val) : Prop :=
  match t with
  | TInt sg sz => exists z, w = VI sg sz z
  | TUb n => exists z, w = VU n z
  | TBits n | TRes n => exists z, w = VB n z
  | TFlag => exists z, w = VF z
  | TBytes => exists bs, w = VBytes bs
  | TStrT | TStr => exists s, w = VStr s
  | TList => (exists l, w = VList l) \/ exists l, w = VNodes l
  | TPyInt => (exists z, w = VInt z) \/ (exists b, w = VBool b) \/ (exists sg sz z, w = VI sg sz z) \/ (exists n z, w = VU n z) \/ exists z, w = VDelay z
  | TFloat => exists m p sz sc, w = VFloatT m p sz sc
  | TDsk => exists bs, w = VDsk bs
  | TIPv6 => exists z, w = VIPv6 z
  | TNodes => exists l, w = VNodes l
  | TNodeList => exists l, w = VNodeList l
  | TSensors => exists l, w = VSensors l
  | THdr => exists l, w = VHdr l
  | TMeta => exists l, w = VMeta l
  | TMsg => (exists s d, w = VObj (CMsg s) d) \/ (exists d, w = VObj CPure d) \/ exists h d, w = VObj (CUnknown h) d
  | TOptData => True
  end.
(** numbers keep their value (flags keep the lowest bit), texts, keys and values that already have the type are kept *)
Definition number (v : val) : option Z :=
  match v with VInt z | VI _ _ z | VU _ z | VB _ z | VF z => Some z | VBool b => Some (if b then 1 else 0) | _ => None end.
Definition converted (t : aty) (v w : val) : Prop :=
  has_type t w /\
  (forall z, number v = Some z -> match t with
     | TInt _ _ | TUb _ | TBits _ | TRes _ | TPyInt => number w = Some z
     | TFlag => w = v \/ number w = Some (z mod 2)
     | _ => True end) /\
  (forall s, v = VStr s -> (t = TStr \/ t = TStrT) -> w = v) /\
  (has_type t v -> (forall n, t <> TBits n) -> (forall n, t <> TRes n) -> w = v).
(** types whose values are equal for python only if they are the same *)
Definition exact (t : aty) : bool := match t with TInt _ _ | TUb _ | TBytes | TStrT | TStr | TIPv6 | TNodes => true | _ => false end.
(** attribute [name] is declared with type [t] *)
Definition declared_as (attrs : list attr) (name : string) (t : aty) : Prop := exists a, find_attr name attrs = Some a /\ a_ty a = t.
(** ** Configuration: the report [m] gives value [v] (of [sz] bytes) for parameter [k] *)
Definition reports_parameter (m : val) (k v sz : Z) : Prop :=
  exists d, m = VObj (CMsg m_Configuration_Report) d /\ (exists a b, aget "parameterNumber" d = Some (VI a b k)) /\ aget "value" d = Some (VInt v) /\ (exists n, aget "size" d = Some (VU n sz)).
(** ** Association interview: what the node answers when asked for group [i]; [None]: no answer in time *)
Definition answers_groups (n : classes) (answers : Z -> option (Z * list (Z * option Z))) (ask : nat -> val -> res val) : Prop :=
  forall k q i, k <> O -> compose q = Ok [if supports n 142 then 142 else 133; 2; i] ->
    match answers i with Some (mx, l) => exists m, ask k q = Ok m /\ lists_members m i mx l | None => ask k q = Err ETimeout end.
Definition asks (d : dialogue) (bs : list Z) : Prop := exists q, d = DGet q /\ compose q = Ok bs.
