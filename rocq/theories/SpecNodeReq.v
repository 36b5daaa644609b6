(** Vocabulary for the properties of a node's requests. *)
From Coq Require Import ZArith List Bool.
From Verif Require Import Py Schema Codec Conn NodeReq.
Import ListNotations.
Open Scope list_scope.
Open Scope Z_scope.

Definition ntrace := list (Z * nobs).
(** messages of type [h] in a piece of trace: when, which, and whether the waiters took it *)
Definition hits (h : Z) (tr : ntrace) : list (Z * val * res bool) :=
  flat_map (fun e => match e with (n, NRecv m r) => if hid m =? h then [(n, m, r)] else [] | _ => [] end) tr.
(** what follows the start of call [t] *)
Fixpoint since_call (t : nat) (tr : ntrace) : ntrace :=
  match tr with
  | [] => []
  | (_, NCall t' _) :: tr' => if Nat.eqb t' t then tr' else since_call t tr'
  | _ :: tr' => since_call t tr'
  end.
(** what follows the moment the command of request [t] was acknowledged *)
Fixpoint since_sent (t : nat) (tr : ntrace) : ntrace :=
  match tr with
  | [] => []
  | (_, NSent t' (Ok true)) :: tr' => if Nat.eqb t' t then tr' else since_sent t tr'
  | _ :: tr' => since_sent t tr'
  end.
(** no other call waits for messages of type [h] *)
Definition alone (t : nat) (h : Z) (tr : ntrace) : Prop := forall n t' c, In (n, NCall t' c) tr -> ncall_hid c = h -> t' = t.
