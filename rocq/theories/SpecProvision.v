(** C129: an entry of the gateway's provisioning list (Z-Wave node provisioning, list iteration report), stated
    without the decoder.  Metadata is a sequence of (type, critical flag, data), each written as one byte with the
    type in the upper seven bits and the flag in the lowest, one byte with the length, and the data. *)
From Coq Require Import ZArith List Bool.
From Verif Require Import Py.
Import ListNotations.
Open Scope Z_scope.

Record metadatum := mkMeta { md_type : Z; md_critical : bool; md_data : list Z }.
Definition md_bytes (e : metadatum) : list Z :=
  (2 * md_type e + (if md_critical e then 1 else 0)) :: zlen (md_data e) :: md_data e.
Definition is_byte (b : Z) : Prop := 0 <= b < 256.
Definition md_wellformed (e : metadatum) : Prop :=
  0 <= md_type e < 128 /\ zlen (md_data e) < 256 /\ Forall is_byte (md_data e).

(** the types of metadata the library has names for: NodeProvisioning.py l.16-28 *)
Definition md_known : list Z := [0; 1; 2; 3; 50; 51; 52; 53; 54; 55].

(** the data of the last metadatum of type [k], and nothing if there is none *)
Fixpoint last_data (k : Z) (es : list metadatum) : option (list Z) :=
  match es with
  | [] => None
  | e :: es' => match last_data k es' with
                | Some bs => Some bs
                | None => if md_type e =? k then Some (md_data e) else None
                end
  end.

(** the report: sequence number, entries remaining, three reserved bits and the length of the key, key, metadata *)
Definition entry_report (seq count reserved : Z) (key : list Z) (es : list metadatum) : list Z :=
  120 :: 4 :: seq :: count :: (32 * reserved + zlen key) :: key ++ flat_map md_bytes es.
