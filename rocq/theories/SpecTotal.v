(** Specification vocabulary for C07: nesting depth and the exceptions decoding may raise. *)
From Coq Require Import String ZArith List Bool.
From Verif Require Import Py Schema.
Import ListNotations.
Open Scope Z_scope.

(** how many messages are nested in each other: 0 for anything that is not a message *)
Fixpoint depth (v : val) : nat :=
  match v with
  | VObj (CMsg _) d =>
      S ((fix deepest (l : list (string * val)) : nat :=
            match l with [] => 0%nat | (_, x) :: l' => Nat.max (depth x) (deepest l') end) d)
  | VObj CPure _ | VObj (CUnknown _) _ => 1%nat
  | _ => 0%nat
  end.

(** EOFError, ValueError, AttributeError, IndexError, UnicodeDecodeError *)
Definition decode_error (e : exn) : Prop :=
  e = EEOF \/ e = EValue \/ e = EAttribute \/ e = EIndex \/ e = EUnicode.
