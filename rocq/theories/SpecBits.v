(** Specification vocabulary for wire formats: numbers as bit strings, most significant bit first.
    Independent of the model. *)
From Coq Require Import ZArith List Bool.
Import ListNotations.
Open Scope Z_scope.

(** the [n] low bits of [z] (two's complement), most significant first *)
Fixpoint nbits (n : nat) (z : Z) : list bool :=
  match n with
  | O => []
  | S n' => Z.testbit z (Z.of_nat n') :: nbits n' z
  end.

(** the number written by a bit string, most significant bit first *)
Definition num (l : list bool) : Z := fold_left (fun acc b => 2 * acc + Z.b2z b) l 0.

(** two's complement reading of a bit string *)
Definition snum (l : list bool) : Z :=
  match l with
  | true :: _ => num l - 2 ^ Z.of_nat (length l)
  | _ => num l
  end.

(** the bits of a byte string *)
Definition bits_of (bs : list Z) : list bool := flat_map (nbits 8) bs.

(** integers representable in [size] bytes, signed or unsigned *)
Definition fits (signed : bool) (size : nat) (z : Z) : Prop :=
  if signed then (size = 0%nat /\ z = 0) \/ (0 < size)%nat /\ - 2 ^ (8 * Z.of_nat size - 1) <= z < 2 ^ (8 * Z.of_nat size - 1)
  else 0 <= z < 2 ^ (8 * Z.of_nat size).
