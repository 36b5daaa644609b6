(** C130: the report about an added node (network management inclusion, node add status), stated without the decoder.
    The length in the report counts the classes and seven bytes besides them. *)
From Coq Require Import ZArith List.
Import ListNotations.
Open Scope Z_scope.

Record added := mkAdded { ad_seq : Z; ad_status : Z; ad_reserved : Z; ad_node : Z; ad_length : Z;
  ad_listening : bool; ad_protocol : Z; ad_optional : bool; ad_protocol2 : Z;
  ad_basic : Z; ad_generic : Z; ad_specific : Z; ad_classes : list Z }.
Definition a_byte (b : Z) : Prop := 0 <= b < 256.
Definition added_ok (a : added) : Prop :=
  a_byte (ad_seq a) /\ a_byte (ad_status a) /\ a_byte (ad_reserved a) /\ a_byte (ad_node a) /\ a_byte (ad_length a) /\
  0 <= ad_protocol a < 128 /\ 0 <= ad_protocol2 a < 128 /\
  a_byte (ad_basic a) /\ a_byte (ad_generic a) /\ a_byte (ad_specific a) /\ Forall a_byte (ad_classes a).
Definition added_bytes (a : added) : list Z :=
  [52; 2; ad_seq a; ad_status a; ad_reserved a; ad_node a; ad_length a;
   (if ad_listening a then 128 else 0) + ad_protocol a; (if ad_optional a then 128 else 0) + ad_protocol2 a;
   ad_basic a; ad_generic a; ad_specific a] ++ ad_classes a.

(** the first [n] of the bytes, or all if there are fewer; none if [n] is not positive *)
Inductive first_of : Z -> list Z -> list Z -> Prop :=
| fo_none : forall n l, n <= 0 -> first_of n l []
| fo_end : forall n, first_of n [] []
| fo_more : forall n x l k, 0 < n -> first_of (n - 1) l k -> first_of n (x :: l) (x :: k).
