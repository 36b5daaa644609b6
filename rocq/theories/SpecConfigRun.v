(** Vocabulary for reads of configuration parameters on a running node. *)
From Coq Require Import String ZArith List Bool.
From Verif Require Import Py Schema Registry Codec NodeReq CmdClass SpecClass ConfigRunM.
Import ListNotations.
Open Scope list_scope.
Open Scope string_scope.
Open Scope list_scope.
Open Scope Z_scope.

Definition ctrace := list (Z * cobs).
(** COMMAND_CLASS_CONFIGURATION, CONFIGURATION_REPORT *)
Definition config_report : Z := 112 * 256 + 6.
(** what [m] says about parameter [k]; a report is kept if the node's message waiters did not fail on it *)
Definition says_of (k : Z) (x : Z * cobs) : list Z :=
  match x with
  | (_, CONet (NRecv m (Ok _))) =>
      match hid m =? config_report, getattr m "parameterNumber", getattr m "value" with
      | true, VI _ _ j, VInt v => if j =? k then [v] else []
      | _, _, _ => []
      end
  | _ => []
  end.
(** the value reported last for [k]; [ps]: what was stored before *)
Definition latest (ps : parameters) (k : Z) (tr : ctrace) : option Z :=
  last (map Some (flat_map (says_of k) tr)) (match dget Z.eqb k ps with Some (v, _) => Some v | None => None end).
(** no report is cut short *)
Definition whole (tr : ctrace) : Prop := forall n m r, In (n, CONet (NRecv m r)) tr -> hid m = config_report -> exists k v sz, reports_parameter m k v sz.
(** the question for [k] on the wire *)
Definition asks_for (k : Z) (q : val) : Prop := compose q = Ok [112; 5; k].
(** a report received in a piece of trace *)
Definition received (m : val) (tr : ctrace) : Prop := hid m = config_report /\ exists n, In (n, CONet (NRecv m (Ok true))) tr.
(** what a user of get() relies on: if it asked the node, it returns the value of a report for [k] that came since *)
Definition true_reads (tr : ctrace) : Prop := forall a n t k c u q b n' v d, tr = a ++ (n, COCall t k c) :: (n, COAsk t u q) :: b ++ (n', CODone t (Ok v)) :: d ->
  exists m w sz, received m b /\ reports_parameter m k w sz /\ v = VInt w.
(** the node reports only what it was asked for *)
Definition answers_only (tr : ctrace) : Prop := forall a n m r b k v sz, tr = a ++ (n, CONet (NRecv m r)) :: b -> reports_parameter m k v sz -> exists n' t u q, In (n', COAsk t u q) a /\ asks_for k q.
(** no two reads at a time ask the node *)
Definition one_read (tr : ctrace) : Prop := forall a n t u q b n' t' u' q' c, tr = a ++ (n, COAsk t u q) :: b ++ (n', COAsk t' u' q') :: c -> exists n2 r, In (n2, CODone t r) b.
