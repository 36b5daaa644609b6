(** Vocabulary for C128: what listeners of a connection are told, compared with the datagrams that arrived. *)
From Coq Require Import String ZArith List Bool.
From Verif Require Import Py Schema Registry Codec Waiter Conn SpecConn Gateway.
Import ListNotations.
Open Scope list_scope.
Open Scope string_scope.
Open Scope list_scope.
Open Scope Z_scope.

(** how many calls that wait for message id [h] were started *)
Definition askings (tr : trace) (h : Z) : nat :=
  length (filter (fun x => match snd x with OCall _ c => match wants c with Some k => k =? h | None => false end | _ => false end) tr).
(** how many of some messages have id [h] *)
Definition of_id (h : Z) (ms : list val) : nat := length (filter (fun m => hid m =? h) ms).
(** [ps]: what listeners are told, as pairs of an announcement and the message in it; [ks]: messages they are not told of.  Datagrams are gone
    through in the order of arrival; one without a message is not announced, one with a message is announced or kept, the latter
    only if more calls that wait for its id were started before than messages of this id were kept *)
Inductive relays : trace -> list (val * val) -> list val -> Prop :=
| R_none : relays [] [] []
| R_other tr ps ks x : relays tr ps ks -> (forall bs, snd x <> ORecv bs) -> relays (tr ++ [x]) ps ks
| R_empty tr ps ks n bs : relays tr ps ks -> (forall m, ~ brings bs m) -> relays (tr ++ [(n, ORecv bs)]) ps ks
| R_kept tr ps ks n bs m : relays tr ps ks -> brings bs m -> (of_id (hid m) ks < askings tr (hid m))%nat -> relays (tr ++ [(n, ORecv bs)]) ps (ks ++ [m])
| R_told tr ps ks n bs m v : relays tr ps ks -> brings bs m -> decode bs = Ok v -> relays (tr ++ [(n, ORecv bs)]) (ps ++ [(v, m)]) ks.
(** what was announced, in order *)
Definition told (tr : trace) : list val := flat_map (fun x => match snd x with OHeard v => [v] | _ => [] end) tr.
(** what the gateway handed on from node connection [l] or dropped for want of a node, in order *)
Definition passed (l : nat) (tr : list (Z * gobs)) : list val :=
  flat_map (fun x => match snd x with GTold (Some i) _ _ m _ | GLost (Some i) m => if Nat.eqb i l then [m] else [] | _ => [] end) tr.
