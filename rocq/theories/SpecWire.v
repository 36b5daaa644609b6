(** Specification of the wire format of messages.  Uses the class declarations (Registry.v) as data but none of
    the model's encoder or decoder functions. *)
From Coq Require Import String ZArith List Bool.
From Verif Require Import Py Schema Registry SpecBits.
Import ListNotations.
Open Scope list_scope.
Open Scope Z_scope.

(** Members of an association list on the wire: plain node ids, then, if there is any endpoint member, the
    marker 0 and the (node, endpoint) pairs. *)
Definition plain_ids (l : list (Z * option Z)) : list Z :=
  map fst (filter (fun p => match snd p with None => true | Some _ => false end) l).
Fixpoint endpoint_ids (l : list (Z * option Z)) : list Z :=
  match l with
  | [] => []
  | (n, Some e) :: l' => n :: e :: endpoint_ids l'
  | (_, None) :: l' => endpoint_ids l'
  end.
Definition member_bytes (l : list (Z * option Z)) : list Z :=
  plain_ids l ++ match endpoint_ids l with [] => [] | e => 0 :: e end.
Definition members_ok (l : list (Z * option Z)) : Prop :=
  Forall (fun p => 0 <= fst p < 256 /\ match snd p with Some e => 0 <= e < 256 | None => True end) l.

(** [field_bits t v b]: the value [v] is of the declared type [t], in range, and is written as the bits [b]. *)
Inductive field_bits : aty -> val -> list bool -> Prop :=
| FB_int sg sz z : fits sg sz z -> field_bits (TInt sg sz) (VI sg sz z) (nbits (8 * sz) z)
| FB_ub n z : 0 <= z < 2 ^ n -> field_bits (TUb n) (VU n z) (nbits (Z.to_nat n) z)
| FB_bits n z : 0 <= z < 2 ^ n -> field_bits (TBits n) (VB n z) (nbits (Z.to_nat n) z)
| FB_res n z : 0 <= z < 2 ^ n -> field_bits (TRes n) (VB n z) (nbits (Z.to_nat n) z)
| FB_flag (f : bool) : field_bits TFlag (VF (if f then 1 else 0)) [f]
| FB_bytes bs : bytes_ok bs -> field_bits TBytes (VBytes bs) (bits_of bs)
| FB_dsk bs : bytes_ok bs -> length bs = 16%nat -> field_bits TDsk (VDsk bs) (bits_of bs)
| FB_ip z : 0 <= z < 2 ^ 128 -> field_bits TIPv6 (VIPv6 z) (nbits 128 z)
| FB_nodes l : members_ok l -> field_bits TNodes (VNodes l) (bits_of (member_bytes l)).

(** bits written for an attribute that was never set: only types with a declared default allow that *)
Inductive default_bits : aty -> list bool -> Prop :=
| DB_res n : default_bits (TRes n) (repeat false (Z.to_nat n))
| DB_bytes : default_bits TBytes []
| DB_nodes : default_bits TNodes []
| DB_hdr : default_bits THdr [].

(** [encodes m b]: the message [m] is complete and in range, and its wire form is [b]. *)
Inductive encodes : val -> list bool -> Prop :=
| E_msg s d b : In s registry -> fields d (s_attrs s) b ->
    encodes (VObj (CMsg s) d) (nbits 8 (s_cls s) ++ nbits 8 (s_cmd s) ++ b)
with fields : adict -> list attr -> list bool -> Prop :=
| F_nil d : fields d [] []
| F_cons d a l b bs : field d a b -> fields d l bs -> fields d (a :: l) (b ++ bs)
with field : adict -> attr -> list bool -> Prop :=
| F_unset d a b : aget (a_name a) d = None -> default_bits (a_ty a) b -> field d a b
| F_set d a v b : aget (a_name a) d = Some v -> a_compose a = None -> field_bits (a_ty a) v b -> field d a b
| F_hdr d a l : aget (a_name a) d = Some (VHdr l) -> a_compose a = None -> a_ty a = THdr ->
    field d a []                       (* header extensions are never written: Zip.py l.195-196 *)
| F_cmd d a m b : aget (a_name a) d = Some m -> a_compose a = None -> a_ty a = TMsg -> encodes m b -> field d a b
| F_nocmd d a c m : aget (a_name a) d = Some (VObj c m) -> a_compose a = None -> a_ty a = TMsg ->
    (c = CPure \/ exists h, c = CUnknown h) -> field d a []
| F_cfg d a z n : a_compose a = Some HCfgSetValue -> a_ty a = TPyInt -> aget (a_name a) d = Some (VInt z) -> a_name a = "value"%string ->
    aget "size" d = Some (VU 3 n) -> 0 <= n -> fits false (Z.to_nat n) z -> field d a (nbits (8 * Z.to_nat n) z).

Scheme encodes_ind' := Minimality for encodes Sort Prop
  with fields_ind' := Minimality for fields Sort Prop
  with field_ind' := Minimality for field Sort Prop.
Combined Scheme encodes_mutind from encodes_ind', fields_ind', field_ind'.

(** ** Arguments given to a message constructor *)
Inductive member_arg : Z * option Z -> val -> Prop :=
| MA_plain n : member_arg (n, None) (VInt n)
| MA_none n : member_arg (n, None) (VTuple [VInt n; VNone])
| MA_endpoint n e : member_arg (n, Some e) (VTuple [VInt n; VInt e]).

(** [arg_bits t v b]: the python value [v] is a legal argument for an attribute of type [t] and stands for [b] *)
Inductive arg_bits : aty -> val -> list bool -> Prop :=
| AB_int sg sz z : fits sg sz z -> arg_bits (TInt sg sz) (VInt z) (nbits (8 * sz) z)
| AB_ub n z : 0 <= z < 2 ^ n -> arg_bits (TUb n) (VInt z) (nbits (Z.to_nat n) z)
| AB_bits n z : 0 <= z < 2 ^ n -> arg_bits (TBits n) (VInt z) (nbits (Z.to_nat n) z)
| AB_res n z : 0 <= z < 2 ^ n -> arg_bits (TRes n) (VInt z) (nbits (Z.to_nat n) z)
| AB_flag (f : bool) : arg_bits TFlag (VBool f) [f]
| AB_bytes bs : bytes_ok bs -> arg_bits TBytes (VPBytes bs) (bits_of bs)
| AB_dsk bs : bytes_ok bs -> length bs = 16%nat -> arg_bits TDsk (VPBytes bs) (bits_of bs)
| AB_ip z : 0 <= z < 2 ^ 128 -> arg_bits TIPv6 (VIPv6 z) (nbits 128 z)
| AB_nodes l vs : members_ok l -> Forall2 member_arg l vs -> arg_bits TNodes (VList vs) (bits_of (member_bytes l))
| AB_msg m b : encodes m b -> arg_bits TMsg m b.

(** the keyword arguments [kw] give a value in range to every attribute of [s] that has no default *)
Inductive args (s : schema) (kw : adict) : list attr -> list bool -> Prop :=
| AR_nil : args s kw [] []
| AR_unset a l b bs : aget (a_name a) kw = None -> default_bits (a_ty a) b -> args s kw l bs -> args s kw (a :: l) (b ++ bs)
| AR_set a l v b bs : aget (a_name a) kw = Some v -> a_compose a = None -> arg_bits (a_ty a) v b ->
    (forall a', In a' (s_attrs s) -> a_name a' = a_name a -> a_ty a' = a_ty a) ->
    args s kw l bs -> args s kw (a :: l) (b ++ bs).

(** ** Values out of range *)
(** the value [v] is a number of the declared type [t] *)
Definition typed (t : aty) (v : val) : Prop :=
  match t, v with
  | TInt sg sz, VI sg' sz' _ => sg = sg' /\ sz = sz'
  | TUb n, VU n' _ | TBits n, VB n' _ | TRes n, VB n' _ => n = n'
  | _, _ => False
  end.

(** the number does not fit the width of its type *)
Definition out_of_range (v : val) : Prop :=
  match v with
  | VI sg sz z => ~ fits sg sz z
  | VU n z | VB n z => ~ (0 <= z < 2 ^ n)
  | _ => False
  end.
(** out of range in a way that the writer notices: whole bytes, negative, or too large for the byte in which the
    field starts at offset [o] *)
Definition noticed (o : Z) (v : val) : Prop :=
  match v with
  | VI sg sz z => ~ fits sg sz z
  | VU n z | VB n z => z < 0 \/ 2 ^ (o + n) <= z
  | _ => False
  end.
