(** Attribute types, message classes and python values. *)
From Coq Require Import ZArith List String.
From Verif Require Import Py.
Import ListNotations.
Open Scope list_scope.
Open Scope Z_scope.

(** Types that occur in [attributes] tuples. *)
Inductive aty : Type :=
| TInt (signed : bool) (size : nat)  (* types.py l.103-136, 191-206, 405: int_t / uint_t subclasses *)
| TUb (n : Z)                        (* types.py l.139-188: uint3_t, uint4_t, uint5_t, uint7_t *)
| TBits (n : Z)                      (* types.py l.264-272: bits_t(n) *)
| TFlag                              (* types.py l.251-261: flag_t *)
| TRes (n : Z)                       (* types.py l.323-332: reserved_t(n), default 0 *)
| TBytes                             (* types.py l.236-248: bytes_t, default b"" *)
| TStrT                              (* types.py l.90-100: str_t *)
| TStr                               (* str *)
| TList                              (* list *)
| TPyInt                             (* int *)
| TFloat                             (* types.py l.294-320: float_t *)
| TDsk                               (* types.py l.335-389: dsk_t *)
| TIPv6                              (* types.py l.392-402: IPv6 *)
| TNodes                             (* Association.py l.23-92: Nodes, default [] *)
| TNodeList                          (* NetworkManagementProxy.py l.33-45 *)
| TSensors                           (* SensorMultilevel.py l.52-66: SensorSupported *)
| THdr                               (* Zip.py l.183-208: HeaderExtension, default {} *)
| TMeta                              (* NodeProvisioning.py l.31-43: MetadataExtension *)
| TMsg                               (* message.py: Message *)
| TOptData.                          (* Zip.py l.28-29: ZIPPacketOptionData *)

(** [parse_<attribute>] methods. *)
Inductive phook : Type :=
| HNodeFailing   (* Mailbox.py l.70-79 *)
| HSupCommand    (* Supervision.py l.26-30 *)
| HHeaderExt     (* Zip.py l.258-264 *)
| HNodeAddCC     (* NetworkManagementInclusion.py l.239-246 *)
| HAgiCmdList    (* AssociationGrpInfo.py l.80-92 *)
| HAgiGroups     (* AssociationGrpInfo.py l.133-140 *)
| HIterDsk       (* NodeProvisioning.py l.91-93 *)
| HCfgValue      (* Configuration.py l.87-89 *)
| HOptData.      (* Zip.py l.160-180 *)

(** [compose_<attribute>] methods. *)
Inductive chook : Type :=
| HCfgSetValue.  (* Configuration.py l.106-108 *)

Record attr := mkA { a_name : string; a_ty : aty; a_parse : option phook; a_compose : option chook }.

(** A registered message class: qualified python name, NAME, command class, command, attributes. *)
Record schema := mkS { s_name : string; s_NAME : string; s_cls : Z; s_cmd : Z; s_attrs : list attr }.

(** message.py l.93-99: [hid] *)
Definition s_hid (s : schema) : Z := Z.lor (Z.shiftl (s_cls s) 8) (Z.land (s_cmd s) 255).

(** Classes of AttributesMixin objects. *)
Inductive cls : Type :=
| CMsg (s : schema)            (* a registered message class *)
| CPure                        (* message.py l.9: Message itself *)
| CUnknown (hid : Z)           (* message.py l.102-113: UnknownMessage *)
| CEncap                       (* Zip.py l.127-134: ZIPPacketOptionEncapsulationFormatInfo *)
| CRoute                       (* Zip.py l.59-81: IMELastWorkingRoute *)
| COption                      (* Zip.py l.151-180: ZIPPacketOption *)
| CGroupInfo.                  (* AssociationGrpInfo.py l.108-117: GroupInfoGroupType *)

(** Python values.  Floats are decimal fractions [m / 10^p]: binary rounding is not modelled. *)
Inductive val : Type :=
| VNone
| VBool (b : bool)
| VInt (z : Z)                          (* int (also IntEnum members) *)
| VI (signed : bool) (size : nat) (z : Z)  (* instance of an int_t subclass *)
| VU (n : Z) (z : Z)                    (* instance of uint<n>_t *)
| VB (n : Z) (z : Z)                    (* instance of bits_t(n) or reserved_t(n) *)
| VF (z : Z)                            (* instance of flag_t *)
| VPBytes (bs : list Z)                 (* bytes *)
| VBytes (bs : list Z)                  (* bytes_t *)
| VStr (s : pystr)                      (* str / str_t *)
| VList (l : list val)
| VTuple (l : list val)
| VDict (l : list (Z * val))            (* dict with integer keys *)
| VFloat (m p : Z)                      (* float *)
| VFloatT (m p size scale : Z)          (* float_t *)
| VDsk (bs : list Z)
| VIPv6 (z : Z)
| VNodes (l : list (Z * option Z))
| VNodeList (l : list Z)                (* set of node ids, in insertion order *)
| VSensors (l : list Z)                 (* set of sensor types, in insertion order *)
| VHdr (l : list (Z * val))             (* HeaderExtension *)
| VMeta (l : list (Z * val))            (* MetadataExtension *)
| VMaint (l : list (Z * val))           (* ZIPPacketOptionMaintenanceReport *)
| VDelay (z : Z)                        (* ZIPPacketOptionExpectedDelay *)
| VOptData                              (* ZIPPacketOptionData() *)
| VObj (c : cls) (attrs : list (string * val)).  (* AttributesMixin instance with its _attributes *)

Definition adict := list (string * val).
Definition aget (n : string) (d : adict) : option val := dget String.eqb n d.
Definition aset (n : string) (v : val) (d : adict) : adict := dset String.eqb n v d.
