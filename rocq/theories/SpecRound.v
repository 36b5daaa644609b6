(** Specification of "the decoded message reads the same as the original". *)
From Coq Require Import String ZArith List Bool.
From Verif Require Import Py Schema Registry SpecBits SpecDecode.
Import ListNotations.
Open Scope list_scope.
Open Scope Z_scope.

(** reading attribute [n], declared with type [t] *)
Definition read_attr (t : aty) (n : string) (d : adict) : val :=
  match aget n d with Some v => v | None => default_of t end.

(** a message object that carries no command: the bare [Message] or an [UnknownMessage] *)
Definition no_command (m : val) : Prop := exists c d, m = VObj c d /\ (c = CPure \/ exists h, c = CUnknown h).

(** The original value and the decoded value mean the same: equal, an unset field next to the zero or empty value
    the wire holds for it, or messages of the same class on which every attribute reads the same. *)
Inductive same_val : val -> val -> Prop :=
| SV_refl v : same_val v v
| SV_reserved n : same_val (VInt 0) (VB n 0)
| SV_bytes : same_val (VBytes []) (VPBytes [])
| SV_nodes : same_val (VNodes []) (VList [])
| SV_hdr : same_val (VHdr []) (VDict [])
| SV_hdr' : same_val (VDict []) (VHdr [])
| SV_nocmd m : no_command m -> same_val m VNone
| SV_msg s d d' :
    (forall n t, declared n (s_attrs s) = Some t -> same_val (read_attr t n d) (read_attr t n d')) ->
    same_val (VObj (CMsg s) d) (VObj (CMsg s) d').

(** association members in the order in which the wire keeps them *)
Definition canonical (l : list (Z * option Z)) : Prop :=
  exists (plain : list Z) (pairs : list (Z * Z)),
    l = map (fun n => (n, None)) plain ++ map (fun ne => (fst ne, Some (snd ne))) pairs /\ Forall (fun n => n <> 0) plain.

(** messages whose class encodes and decodes the same layout *)
Inductive symmetric : val -> Prop :=
| Sym s d :
    (forall a, In a (s_attrs s) -> a_compose a = None /\ (a_parse a = None \/
        (a_parse a = Some HHeaderExt /\ aget "headerExtIncluded" d = Some (VF 0) /\
         (aget (a_name a) d = None \/ aget (a_name a) d = Some (VHdr []))))) ->
    (forall a l, In a (s_attrs s) -> a_ty a = TNodes -> aget (a_name a) d = Some (VNodes l) -> canonical l) ->
    (forall a m, In a (s_attrs s) -> a_ty a = TMsg -> aget (a_name a) d = Some m -> symmetric m \/ no_command m) ->
    symmetric (VObj (CMsg s) d).
