(** C08 (further statements): whole bytes and all that is left.  Statements only; proofs are in StreamProofs.v. *)
From Coq Require Import ZArith List Bool Lia.
From Verif Require Import Py BitStream.
From Verif Require StreamProofs.
Import ListNotations.
Open Scope Z_scope.

(** value(n) returns the next [n] bytes, and fails if there are fewer *)
Theorem C08_value bs p n : 0 <= p -> 0 <= n ->
  rvalue n (mkR bs p) = if p / 8 + n <=? zlen bs then Ok (firstn (Z.to_nat n) (skipn (Z.to_nat (p / 8)) bs), mkR bs (p + 8 * n)) else Err EEOF.
Proof. exact (StreamProofs.value_at bs p n). Qed.
Print Assumptions C08_value.
Example C08_value_ex : rvalue 2 (mkR [1; 2; 3] 8) = Ok ([2; 3], mkR [1; 2; 3] 24) /\ rvalue 3 (mkR [1; 2; 3] 8) = Err EEOF.
Proof. split; reflexivity. Qed.
(** remaining() returns the bytes that have not been read and leaves nothing to read *)
Theorem C08_remaining bs p out r : 0 <= p -> remaining (mkR bs p) = (out, r) ->
  out = skipn (Z.to_nat (p / 8)) bs /\ (forall n, 0 < n -> rvalue n r = Err EEOF) /\ (forall n, rbits n r = Err EEOF) /\ bytesLeft r <= 0.
Proof. exact (StreamProofs.remaining_at bs p out r). Qed.
Print Assumptions C08_remaining.
Example C08_remaining_ex : fst (remaining (mkR [1; 2; 3] 8)) = [2; 3].
Proof. reflexivity. Qed.
