(** Schedules used in the examples and refutations of PropertiesConn.v. *)
From Coq Require Import String ZArith List Bool Lia ZifyBool ZifyNat.
From Verif Require Import Py BitStream Schema Registry Codec SpecBits SpecWire Waiter Conn SpecConn ConnLemmas ConnInv ConnCalm ConnRest ConnFirst.
Import ListNotations.
Open Scope list_scope.
Open Scope string_scope.
Open Scope list_scope.
Open Scope Z_scope.

(** Basic.Get (20 02) and a packet bringing Basic.Report(5) (20 03 05) *)
Definition x_get : val := VObj (CMsg m_Basic_Get) [].
Definition x_report : val := VObj (CMsg m_Basic_Report) [("value", VInt 5)].
Definition x_hid : Z := s_hid m_Basic_Report.
Definition x_reply : event := EvPacket [35; 2; 0; 64; 9; 0; 0; 32; 3; 5].
Definition x_ack (q : Z) : event := EvPacket [35; 2; 64; 0; q; 0; 0].
Definition x_queued (q : Z) : event := EvPacket [35; 2; 48; 128; q; 0; 0; 6; 1; 3; 0; 0; 10].
Definition x_send : event := EvCall (CSend x_get 0 0 3000).
Definition x_ask : event := EvCall (CSendRecv x_get 0 0 x_hid 5000).
Definition x_wait (tmo : Z) : event := EvCall (CWait x_hid tmo).
(** a send that is acknowledged at once *)
Definition x_done (t : nat) (q : Z) : list event := [x_send; x_ack q; EvResume t].
Fixpoint x_many (k : nat) (t : nat) (q : Z) : list event :=
  match k with O => [] | S k' => x_done t q ++ x_many k' (S t) ((q + 1) mod 256) end.

(** the state after a run *)
Definition after (es : list event) : conn := match run conn0 es with Some (s, _) => s | None => conn0 end.
Definition shown (es : list event) : trace := match run conn0 es with Some (_, tr) => tr | None => [] end.
Definition runs (es : list event) : bool := match run conn0 es with Some _ => true | None => false end.
Lemma runs_exec es : runs es = true -> exec conn0 es (after es) (shown es).
Proof. unfold runs, after, shown. destruct (run conn0 es) as [[s tr]|] eqn:E; [|discriminate]. intros _. exact (run_exec _ _ _ _ E). Qed.

(** time out and acknowledgement cross *)
Definition x_race : list event := [EvConnect; x_send; EvAdvance 3000; EvTimer 0; EvResume 0; x_ack 1; EvResume 0].
(** a cancelled send, then 255 successful ones, then one more *)
Definition x_leak : list event := [EvConnect; x_send; EvCancel 0] ++ x_many 255 1 2 ++ [x_send].
(** two sends waiting with the same number: 256 sends are started while the expiry of the first one is being processed *)
Fixpoint x_acked (k : nat) (t : nat) (q : Z) : list event :=
  match k with O => [] | S k' => [x_ack q; EvResume t] ++ x_acked k' (S t) ((q + 1) mod 256) end.
Definition x_twice : list event := [EvConnect; x_send; EvAdvance 3000; EvTimer 0; EvResume 0; x_ack 1] ++ repeat x_send 256 ++ [EvResume 0] ++ x_acked 255 1 2 ++ repeat x_send 256.
(** one caller's time out ends another caller's wait *)
Definition x_foreign : list event := [EvConnect; x_wait 100; x_wait 1000; EvAdvance 100; EvTimer 0; EvResume 0; EvResume 1; EvResume 0].
(** two callers get the same message; the first one waits again; the second one removes its session *)
Definition x_cross : list event := [EvConnect; x_wait 1000; x_wait 1000; x_reply; EvResume 0; x_wait 1000; EvResume 1; EvAdvance 10].
Definition x_missed : list event := x_cross ++ [x_reply; EvAdvance 990; EvTimer 2; EvResume 2; EvResume 2].
(** a request cancelled while it waits for its acknowledgement *)
Definition x_orphan : list event := [EvConnect; x_ask; EvCancel 0].
(** reply before the acknowledgement, and the same with the crossing time out *)
Definition x_early : list event := [EvConnect; x_ask; x_reply; x_ack 1; EvResume 0; EvResume 0].
Definition x_lost : list event := [EvConnect; x_ask; x_reply; EvAdvance 3000; EvTimer 0; EvResume 0; x_ack 1; EvResume 0].

Lemma x_brings : brings [35; 2; 0; 64; 9; 0; 0; 32; 3; 5] (VObj (CMsg m_Basic_Report) [("value", VI false 1 5)]).
Proof. left. do 3 eexists. split; [vm_compute; reflexivity|]. repeat split. Qed.
Lemma x_get_encodes : encodes x_get (nbits 8 32 ++ nbits 8 2 ++ []).
Proof. apply (E_msg m_Basic_Get); [|constructor]. unfold registry. repeat (first [left; reflexivity | right]). Qed.
(** runs without datagrams are calm *)
Lemma run_calm es : forall s s' tr, run s es = Some (s', tr) -> (forall bs, ~ In (EvPacket bs) es) -> calm_exec s es s' tr.
Proof.
  induction es as [|e es IH]; intros s s' tr E N; cbn [run] in E; [injection E as <- <-; constructor|].
  destruct (step s e) as [[s1 os]|] eqn:S; [|discriminate]. destruct (run s1 es) as [[s2 tr2]|] eqn:R; [|discriminate]. injection E as <- <-.
  change (e :: es) with ([e] ++ es). eapply calm_app; [|exact (IH _ _ _ R (fun bs J => N bs (or_intror J)))].
  change [e] with ([] ++ [e]). change (stamp (c_now s) os) with ([] ++ stamp (c_now s) os). eapply Q_snoc; [constructor|exact S|]. intros (bs & ->). elim (N bs (or_introl eq_refl)).
Qed.
