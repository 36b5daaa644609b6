(** C07: termination, nesting and the exceptions of decoding.  Statements only; the proofs are in TotalProofs.v. *)
From Coq Require Import String ZArith List Bool Lia.
From Verif Require Import Py BitStream Schema Registry Codec SpecTotal.
From Verif Require TotalProofs.
Import ListNotations.
Open Scope list_scope.
Open Scope Z_scope.

(** The outcome is a message, nested at most half the length of the frame plus one deep, or one of EOFError,
    ValueError, AttributeError, IndexError, UnicodeDecodeError. *)
Theorem C07_outcome bs : bytes_ok bs ->
  match decode bs with
  | Ok m => is_message m = true /\ Z.of_nat (depth m) <= zlen bs / 2 + 1
  | Err e => decode_error e
  end.
Proof. exact (TotalProofs.decode_total bs). Qed.
Print Assumptions C07_outcome.

(** Python's recursion is modelled with an allowance: above half the length of the frame it has no influence. *)
Theorem C07_allowance bs f : bytes_ok bs -> zlen bs / 2 < Z.of_nat f ->
  (do (m, _) <- deserialize f (new_reader bs); Ok m) = decode bs.
Proof. exact (TotalProofs.decode_fuel bs f). Qed.
Print Assumptions C07_allowance.

(** two supervision encapsulations around a Basic.Set; and one frame for each exception *)
Example C07_example : bytes_ok [108; 1; 1; 8; 108; 1; 2; 3; 32; 1; 9; 5] /\
  (match decode [108; 1; 1; 8; 108; 1; 2; 3; 32; 1; 9; 5] with Ok m => depth m | Err _ => 0%nat end) = 3%nat /\
  decode [32] = Ok (VObj (CUnknown 0) []) /\
  decode [49; 5; 1; 34; 1] = Err EEOF /\ decode [49; 2; 64] = Err EValue /\ decode [112; 4; 1; 1; 1] = Err EAttribute /\
  decode [133; 3; 1; 1; 0; 0; 5] = Err EIndex.
Proof. split; [repeat (constructor; [lia|]); constructor|]. vm_compute. repeat split. Qed.
