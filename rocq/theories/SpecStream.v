(** A sequence of fields written to and read from a bit stream. *)
From Coq Require Import ZArith List Bool.
From Verif Require Import Py BitStream SpecBits.
Import ListNotations.
Open Scope Z_scope.

(** a sub-byte field of [n] bits or an integer of [size] bytes, with its value *)
Inductive piece := PSub (n z : Z) | PInt (signed : bool) (size : nat) (z : Z).
(** the bits it stands for *)
Definition piece_bits (p : piece) : list bool :=
  match p with PSub n z => nbits (Z.to_nat n) z | PInt _ sz z => nbits (8 * sz) z end.
Definition piece_val (p : piece) : Z := match p with PSub _ z | PInt _ _ z => z end.
(** writing and reading with the calls the message types make: types.py l.113-120, 142-188, 226-233 *)
Definition write1 (p : piece) (w : writer) : res writer :=
  match p with PSub n z => addBits z n w | PInt sg sz z => addBytes z (Z.of_nat sz) sg w end.
Fixpoint write_all (l : list piece) (w : writer) : res writer :=
  match l with [] => Ok w | p :: l' => do w' <- write1 p w; write_all l' w' end.
Definition read1 (p : piece) (r : reader) : res (Z * reader) :=
  match p with
  | PSub n _ => rbits n r
  | PInt sg sz _ => do (bs, r') <- rvalue (Z.of_nat sz) r; Ok (from_bytes sg bs, r')
  end.
Fixpoint read_all (l : list piece) (r : reader) : res (list Z) :=
  match l with [] => Ok [] | p :: l' => do (z, r') <- read1 p r; do zs <- read_all l' r'; Ok (z :: zs) end.
(** no sub-byte field crosses a byte boundary, integers start on one, values fit *)
Fixpoint pieces_ok (o : Z) (l : list piece) : Prop :=
  match l with
  | [] => True
  | PSub n z :: l' => 1 <= n /\ o + n <= 8 /\ 0 <= z < 2 ^ n /\ pieces_ok ((o + n) mod 8) l'
  | PInt sg sz z :: l' => o = 0 /\ fits sg sz z /\ pieces_ok 0 l'
  end.

