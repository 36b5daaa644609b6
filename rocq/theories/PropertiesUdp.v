(** C92-C94: the UDP connection object.  Statements only; proofs are in UdpProofs.v. *)
From Coq Require Import ZArith List Bool.
From Verif Require Import Py UdpM SpecUdp.
From Verif Require UdpProofs.
Import ListNotations.
Open Scope Z_scope.

(** ** C92 *)
(** at every moment (a run is any list of events) the callback calls so far are those due for the datagrams so far *)
Theorem C92_delivery vs : one_role vs -> calls (snd (urun udp0 vs)) = due None (fun _ => false) (snd (urun udp0 vs)).
Proof. exact (UdpProofs.delivered vs). Qed.
Print Assumptions C92_delivery.
Definition x_open (t : nat) : list uevent := [UMade t; UResume t].
Definition x_server : list uevent := UListen :: x_open 0 ++ [UArrive 0 [1] 5; UOnMessage (Some 7%nat); UArrive 0 [2; 3] 6; UOnMessage (Some 8%nat); UArrive 0 [4] 5].
Example C92_example : one_role x_server /\ calls (snd (urun udp0 x_server)) = [(7%nat, [2; 3], Some 6); (8%nat, [4], Some 5)].
Proof. split; [|reflexivity]. intros [H _]. cbn in H. intuition discriminate. Qed.
Definition x_client : list uevent := UConnect :: UOnMessage (Some 7%nat) :: x_open 0 ++ [UArrive 0 [2; 3] 6; UArrive 0 [2; 3] 6; UStop; UArrive 0 [1] 6].
Example C92_client_example : one_role x_client /\ calls (snd (urun udp0 x_client)) = [(7%nat, [2; 3], None); (7%nat, [2; 3], None)].
Proof. split; [|reflexivity]. intros [_ H]. cbn in H. intuition discriminate. Qed.
(** the hypothesis is needed: an object that listens too calls the callback of its client socket with two arguments *)
Example C92_two_roles : exists vs, calls (snd (urun udp0 vs)) <> due None (fun _ => false) (snd (urun udp0 vs)).
Proof. exists (UConnect :: UOnMessage (Some 7%nat) :: x_open 0 ++ UListen :: [UArrive 0 [1] 5]). discriminate. Qed.

(** ** C93 *)
(** send() returns True although nothing was written: the socket is closed *)
Theorem C93_refuted : exists vs pre e bs post, snd (urun udp0 vs) = pre ++ BWrite e bs None false :: BSend bs (Ok true) :: post.
Proof. exists (UConnect :: x_open 0 ++ [UStop; USend [1; 2]]). exists [BMade 0 0 false; BReady 0 0; BClose 0; BStop (Ok tt)]. eexists _, _, _. reflexivity. Qed.
Print Assumptions C93_refuted.
(** False means that nothing was ever opened; True that the bytes were passed to the socket opened last, and that they went out if
    nobody closed it and it was not lost *)
Theorem C93_partial vs pre bs r post : snd (urun udp0 vs) = pre ++ BSend bs r :: post ->
  (r = Ok false /\ latest pre None = None) \/
  (exists pre' e w, r = Ok true /\ pre = pre' ++ [BWrite e bs None w] /\ latest pre' None = Some e /\ (w = true <-> alive e pre')).
Proof. exact (UdpProofs.send_truth vs pre bs r post). Qed.
Print Assumptions C93_partial.
(** nothing else is written *)
Theorem C93_only_partial vs pre e bs to w post : snd (urun udp0 vs) = pre ++ BWrite e bs to w :: post ->
  latest pre None = Some e /\ (w = true <-> alive e pre) /\
  exists post', post = match to with None => BSend bs (Ok true) | Some a => BSendTo bs a (Ok tt) end :: post'.
Proof. exact (UdpProofs.write_called vs pre e bs to w post). Qed.
Print Assumptions C93_only_partial.
Example C93_example : exists pre post, snd (urun udp0 (USend [9] :: UConnect :: x_open 0 ++ [USend [1; 2]])) = pre ++ BSend [1; 2] (Ok true) :: post /\
  pre = [BSend [9] (Ok false); BMade 0 0 false; BReady 0 0; BWrite 0 [1; 2] None true].
Proof. eexists _, []. split; [|reflexivity]. reflexivity. Qed.

(** ** C94 *)
(** after two connects stop() closes only the second socket; the first one still calls the callback *)
Theorem C94_stop_refuted : exists vs pre post, snd (urun udp0 vs) = pre ++ BStop (Ok tt) :: post /\ calls post = [(7%nat, [1], None)].
Proof.
  exists (UOnMessage (Some 7%nat) :: UConnect :: x_open 0 ++ UConnect :: x_open 1 ++ [UStop; UArrive 0 [1] 5]).
  exists [BSet (Some 7%nat); BMade 0 0 false; BReady 0 0; BMade 1 1 false; BReady 1 1; BClose 1]. eexists. split; reflexivity.
Qed.
Print Assumptions C94_stop_refuted.
(** the end of the old socket closes the new one *)
Theorem C94_lost_refuted : exists vs pre post, snd (urun udp0 vs) = pre ++ BClose 1 :: post /\ In (BReady 1 1) pre /\ ~ In (BLost 1) (pre ++ post) /\ (forall r, ~ In (BStop r) post).
Proof.
  exists (UConnect :: x_open 0 ++ [UConnect; UMade 1; UStop; ULost 0; UResume 1; URun 0]).
  exists [BMade 0 0 false; BReady 0 0; BMade 1 1 false; BClose 0; BStop (Ok tt); BLost 0; BReady 1 1], []. split; [reflexivity|]. split; [cbn; tauto|]. split; [cbn; intuition discriminate|intros r []].
Qed.
Print Assumptions C94_lost_refuted.
(** stop() before the socket is open raises AttributeError, and the socket opens afterwards *)
Theorem C94_early_refuted : exists vs pre post, snd (urun udp0 vs) = pre ++ BStop (Err EAttribute) :: post /\ calls post = [(7%nat, [1], None)].
Proof.
  exists (UOnMessage (Some 7%nat) :: UConnect :: UStop :: x_open 0 ++ [UArrive 0 [1] 5]). exists [BSet (Some 7%nat)]. eexists. split; reflexivity.
Qed.
Print Assumptions C94_early_refuted.
(** an object that is opened once: after stop() nothing is received or written; only stop() or the loss of the socket closes it *)
Theorem C94_partial vs pre post : opened_once vs -> snd (urun udp0 vs) = pre ++ BStop (Ok tt) :: post ->
  calls post = [] /\ forall e bs to, ~ In (BWrite e bs to true) post.
Proof. exact (UdpProofs.stop_quiet vs pre post). Qed.
Print Assumptions C94_partial.
Theorem C94_close_partial vs pre e post : opened_once vs -> snd (urun udp0 vs) = pre ++ BClose e :: post ->
  (exists post', post = BStop (Ok tt) :: post') \/ In (BLost e) pre.
Proof. exact (UdpProofs.close_cause vs pre e post). Qed.
Print Assumptions C94_close_partial.
Example C94_example : opened_once x_client /\ exists pre post, snd (urun udp0 x_client) = pre ++ BStop (Ok tt) :: post /\ length pre = 8%nat.
Proof. split; [cbn; repeat constructor|]. exists (firstn 8 (snd (urun udp0 x_client))), (skipn 9 (snd (urun udp0 x_client))). split; reflexivity. Qed.
