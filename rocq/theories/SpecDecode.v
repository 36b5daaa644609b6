(** Specification of how a payload is cut into attributes.  Works on bit strings; uses the class declarations
    as data but none of the model's decoder functions. *)
From Coq Require Import String ZArith List Bool.
From Verif Require Import Py Schema Registry SpecBits.
Import ListNotations.
Open Scope list_scope.
Open Scope Z_scope.

(** declared width in bits of the fixed size types *)
Definition width (t : aty) : option nat :=
  match t with
  | TInt _ sz => Some (8 * sz)%nat
  | TUb n | TBits n | TRes n => Some (Z.to_nat n)
  | TFlag => Some 1%nat
  | TDsk | TIPv6 => Some 128%nat
  | _ => None
  end.

(** Cut a bit string into the consecutive fields [l].  Fields beyond the end are absent; [None] means that some
    field starts before the end but does not fit.  A field without a fixed width takes everything. *)
Fixpoint cut (l : list attr) (b : list bool) : option (list (list bool)) :=
  match l, b with
  | [], _ => Some []
  | _, [] => Some []
  | a :: l', _ =>
      match width (a_ty a) with
      | Some n =>
          if (length b <? n)%nat then None
          else match cut l' (skipn n b) with Some cs => Some (firstn n b :: cs) | None => None end
      | None => Some [b]
      end
  end.

(** the value that the bits [c] mean for an attribute of type [t] *)
Inductive reads : aty -> list bool -> val -> Prop :=
| R_uint sz c : reads (TInt false sz) c (VI false sz (num c))
| R_sint sz c : reads (TInt true sz) c (VI true sz (snum c))
| R_ub n c : reads (TUb n) c (VU n (num c))
| R_bits n c : reads (TBits n) c (VB n (num c))
| R_res n c : reads (TRes n) c (VB n (num c))
| R_flag c : reads TFlag c (VF (num c))
| R_bytes c bs : bytes_ok bs -> bits_of bs = c -> reads TBytes c (VBytes bs)
| R_dsk c bs : bytes_ok bs -> bits_of bs = c -> reads TDsk c (VDsk bs)
| R_ip c : reads TIPv6 c (VIPv6 (num c)).

(** the declared type of attribute [n]: that of its first declaration *)
Fixpoint declared (n : string) (l : list attr) : option aty :=
  match l with
  | [] => None
  | a :: l' => if String.eqb n (a_name a) then Some (a_ty a) else declared n l'
  end.

(** the last of the pieces [cs] that belongs to a field named [n] *)
Fixpoint last_piece (n : string) (l : list attr) (cs : list (list bool)) : option (list bool) :=
  match l, cs with
  | a :: l', c :: cs' =>
      match last_piece n l' cs' with
      | Some x => Some x
      | None => if String.eqb n (a_name a) then Some c else None
      end
  | _, _ => None
  end.

(** A flat class: fixed size fields without special parsing, possibly ending with a byte string. *)
Fixpoint flat (l : list attr) : bool :=
  match l with
  | [] => true
  | a :: l' =>
      match a_parse a, width (a_ty a), a_ty a, l' with
      | None, Some _, _, _ => flat l'
      | None, None, TBytes, [] => true
      | _, _, _, _ => false
      end
  end.
Definition flat_class (s : schema) : bool := flat (s_attrs s).

(** what reading attribute [n] gives when it is absent: the default its type declares *)
Definition default_of (t : aty) : val :=
  match t with
  | TRes _ => VInt 0
  | TBytes => VPBytes []
  | TNodes => VList []
  | THdr => VDict []
  | _ => VNone
  end.

(** total width of the fixed size fields; does the class end with a byte string *)
Fixpoint fixed_bits (l : list attr) : nat :=
  match l with [] => 0 | a :: l' => (match width (a_ty a) with Some n => n | None => 0 end + fixed_bits l')%nat end.
Definition open_ended (l : list attr) : bool := existsb (fun a => match a_ty a with TBytes => true | _ => false end) l.
Definition full_payload (l : list attr) (bits : nat) : Prop :=
  bits = fixed_bits l \/ open_ended l = true /\ (fixed_bits l <= bits)%nat.

(** the command is one of the registered classes *)
Definition is_registered (c m : Z) : Prop := exists s, In s registry /\ s_cls s = c /\ s_cmd s = m.
