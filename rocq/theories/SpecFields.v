(** Specification vocabulary for C09-C18, C21, C22.  Uses values as data but none of the model's functions. *)
From Coq Require Import String ZArith List Bool.
From Verif Require Import Py Schema SpecBits SpecDecode.
Import ListNotations.
Open Scope list_scope.
Open Scope string_scope.
Open Scope list_scope.
Open Scope Z_scope.

(** the fixed size attributes [pre] at the start of a class read what the bytes [p] hold *)
Definition header_reads (all pre : list attr) (p : list Z) (d : adict) : Prop :=
  exists cs, cut pre (bits_of p) = Some cs /\ forall n c, last_piece n pre cs = Some c ->
    exists v t, aget n d = Some v /\ declared n all = Some t /\ reads t c v.

(** ** Z/IP header extension (C09) *)
(** information elements of a maintenance report *)
Inductive element :=
| ERouteChanged (z : Z)
| ETransmissionTime (z : Z)
| EWorkingRoute (r1 r2 r3 r4 speed : Z)
| EAckChannel (z : Z)
| ETransmitChannel (z : Z)
| EOtherElement (ty : Z) (bs : list Z).
Definition byte (z : Z) : Prop := 0 <= z < 256.
Definition element_ok (e : element) : Prop :=
  match e with
  | ERouteChanged z | EAckChannel z | ETransmitChannel z => byte z
  | ETransmissionTime z => 0 <= z < 65536
  | EWorkingRoute a b c d s => byte a /\ byte b /\ byte c /\ byte d /\ byte s
  | EOtherElement ty bs => (ty = 3 \/ ty = 6 \/ ty = 7 \/ ty = 8) /\ bytes_ok bs /\ zlen bs < 256
  end.
Definition element_type (e : element) : Z :=
  match e with
  | ERouteChanged _ => 0 | ETransmissionTime _ => 1 | EWorkingRoute _ _ _ _ _ => 2 | EAckChannel _ => 4
  | ETransmitChannel _ => 5 | EOtherElement ty _ => ty
  end.
Definition element_data (e : element) : list Z :=
  match e with
  | ERouteChanged z | EAckChannel z | ETransmitChannel z => [z]
  | ETransmissionTime z => [z / 256; z mod 256]
  | EWorkingRoute a b c d s => [a; b; c; d; s]
  | EOtherElement _ bs => bs
  end.
Definition element_bytes (e : element) : list Z := element_type e :: zlen (element_data e) :: element_data e.
Definition element_reads (e : element) (v : val) : Prop :=
  match e with
  | ERouteChanged z | EAckChannel z | ETransmitChannel z => v = VI false 1 z
  | ETransmissionTime z => v = VI false 2 z
  | EWorkingRoute r1 r2 r3 r4 s => exists d, v = VObj CRoute d /\
      aget "repeater1" d = Some (VI false 1 r1) /\ aget "repeater2" d = Some (VI false 1 r2) /\
      aget "repeater3" d = Some (VI false 1 r3) /\ aget "repeater4" d = Some (VI false 1 r4) /\
      aget "speed" d = Some (VI false 1 s)
  | EOtherElement _ bs => v = VBytes bs
  end.

(** the last of the items whose key is [k] *)
Fixpoint latest {A} (key : A -> Z) (k : Z) (l : list A) : option A :=
  match l with
  | [] => None
  | x :: l' => match latest key k l' with Some y => Some y | None => if key x =? k then Some x else None end
  end.

(** options *)
Inductive zoption :=
| ODelay (critical : bool) (seconds : Z)
| OReport (critical : bool) (els : list element)
| OEncap (critical : bool) (security reserved : Z) (crc16 : bool).
Definition option_type (o : zoption) : Z := match o with ODelay _ _ => 1 | OReport _ _ => 3 | OEncap _ _ _ _ => 4 end.
Definition option_data (o : zoption) : list Z :=
  match o with
  | ODelay _ z => [(z / 65536) mod 256; (z / 256) mod 256; z mod 256]
  | OReport _ els => flat_map element_bytes els
  | OEncap _ s r c => [s; 2 * r + (if c then 1 else 0)]
  end.
Definition option_ok (o : zoption) : Prop :=
  match o with
  | ODelay _ z => - 2 ^ 23 <= z < 2 ^ 23
  | OReport _ els => Forall element_ok els /\ zlen (flat_map element_bytes els) < 256
  | OEncap _ s r _ => byte s /\ 0 <= r < 128
  end.
Definition option_critical (o : zoption) : bool := match o with ODelay c _ | OReport c _ | OEncap c _ _ _ => c end.
Definition option_bytes (o : zoption) : list Z :=
  ((if option_critical o then 128 else 0) + option_type o) :: zlen (option_data o) :: option_data o.
Definition option_reads (o : zoption) (v : val) : Prop :=
  match o with
  | ODelay _ z => v = VDelay z
  | OReport _ els => exists l, v = VMaint l /\
      forall k, match latest element_type k els with
                | Some e => exists x, dget Z.eqb k l = Some x /\ element_reads e x
                | None => dget Z.eqb k l = None
                end
  | OEncap _ s r c => exists d, v = VObj CEncap d /\
      aget "security2SecurityClass" d = Some (VB 8 s) /\ aget "crc16" d = Some (VF (if c then 1 else 0))
  end.
Definition extension_reads (os : list zoption) (l : list (Z * val)) : Prop :=
  forall k, match latest option_type k os with
            | Some o => exists v, dget Z.eqb k l = Some v /\ option_reads o v
            | None => dget Z.eqb k l = None
            end.

(** ** Node list mask (C11, C12): id [n] is announced by the mask *)
Definition mask_bit (mask : list Z) (n : Z) : bool := Z.testbit (nth (Z.to_nat ((n - 1) / 8)) mask 0) ((n - 1) mod 8).

(** ** association members (C14): plain members first, then endpoint members *)
Definition wire_order (l : list (Z * option Z)) : list (Z * option Z) :=
  filter (fun p => match snd p with None => true | Some _ => false end) l
  ++ filter (fun p => match snd p with None => false | Some _ => true end) l.

(** ** acknowledgement packets (C18) *)
Definition b2 (b : bool) : Z := if b then 1 else 0.
(** byte 0 of the header: bit 6 ack, bit 5 nack, bit 4 waiting, bit 3 queue full, bit 2 option error *)
Definition ack_flags (ok w q o : bool) : Z := 64 * b2 ok + 32 * b2 (negb ok) + 16 * b2 w + 8 * b2 q + 4 * b2 o.

(** ** association group info (C22) *)
Definition pair_bytes (x : Z * Z) : list Z := [fst x; snd x].
Definition pair_value (x : Z * Z) : val := VList [VInt (fst x); VInt (snd x)].
(** one group entry: identifier, mode, profile, reserved, event code *)
Definition group_bytes (g : Z * Z * Z * Z * Z) : list Z := match g with (id, mode, prof, rs, ev) => [id; mode; prof / 256; prof mod 256; rs; ev / 256; ev mod 256] end.
Definition group_ok (g : Z * Z * Z * Z * Z) : Prop := match g with (id, mode, prof, rs, ev) => byte id /\ byte mode /\ 0 <= prof < 65536 /\ byte rs /\ 0 <= ev < 65536 end.
Definition group_reads (g : Z * Z * Z * Z * Z) (v : val) : Prop := match g with (id, mode, prof, rs, ev) =>
  exists d, v = VObj CGroupInfo d /\ aget "groupingIdentifier" d = Some (VI false 1 id) /\ aget "mode" d = Some (VI false 1 mode) /\
    aget "profile" d = Some (VI false 2 prof) /\ aget "eventCode" d = Some (VI false 2 ev) end.
