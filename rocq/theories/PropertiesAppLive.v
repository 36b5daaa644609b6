(** C119: the tasks of the application end.  Statements only; proofs are in AppLive.v. *)
From Coq Require Import String ZArith List Bool Lia.
From Verif Require Import Py Schema Registry Codec Waiter Conn NodeM AppM SpecApp SpecAppLive.
From Verif Require AppProofs AppLive.
Import ListNotations.
Open Scope list_scope.
Open Scope string_scope.
Open Scope list_scope.
Open Scope Z_scope.

(** A task whose awaits end, one after the other, ends, whatever else happens meanwhile and whatever it is answered. *)
Theorem C119_ends es0 tr f es os t c : aexec app0 es0 (f 0%nat) tr -> In (OCalled t c) tr -> runs f es os -> served t tr es os -> exists n, over t (tr ++ until os n).
Proof. exact (AppLive.ends es0 tr f es os t c). Qed.
Print Assumptions C119_ends.
(** A task that has not ended waits for the end of one await; every answer to that question, and every exception, makes it go on. *)
Theorem C119_ready es s tr t c : aexec app0 es s tr -> In (OCalled t c) tr -> ~ over t tr -> exists o, waits_for t tr o /\
  forall r, match r with Ok a => suits o a | Err _ => True end -> exists s' os, astep s (EAnswer t r) = Some (s', os).
Proof. exact (AppLive.ready es s tr t c). Qed.
Print Assumptions C119_ready.

(** an update that finds node 5 with one end point, with a message for another node in between *)
Definition l_begin : list aevent := [EMe 1; ECall AUpdate].
Definition l_rest : list aevent :=
  [EAnswer 0 (Ok (ANodes [1; 5])); EAnswer 0 (Ok (AInfo [94; 96] 4 16 1 true)); ECall (AMessage 9 (Some 0) VNone VNone); EAnswer 0 (Ok (ACount 1)); EAnswer 0 (Ok (ACap [37] 16 1));
   EAnswer 0 (Ok (ATold [])); EAnswer 0 (Ok (ATold [])); EAnswer 0 (Ok (ATold []))].
Definition run_of (s : app) (es : list aevent) : app * list aobs := match arun s es with Some r => r | None => (s, []) end.
Definition l_0 : app := Eval vm_compute in fst (run_of app0 l_begin).
Definition l_t0 : list aobs := Eval vm_compute in snd (run_of app0 l_begin).
Definition l_f (n : nat) : app := fst (run_of l_0 (firstn n l_rest)).
Definition l_es (n : nat) : list aevent := match nth_error l_rest n with Some e => [e] | None => [] end.
Definition l_os (n : nat) : list aobs := snd (run_of (l_f n) (l_es n)).
Example C119_case : aexec app0 l_begin (l_f 0) l_t0 /\ In (OCalled 0 AUpdate) l_t0 /\ runs l_f l_es l_os /\ served 0 l_t0 l_es l_os /\ ~ over 0 l_t0 /\ waits_for 0 l_t0 (OQuery 0 QNodes) /\
  over 0 (l_t0 ++ until l_os 8).
Proof.
  assert (D : over 0 (l_t0 ++ until l_os 8)) by (exists (Ok RNone); vm_compute; tauto).
  assert (N : ~ over 0 l_t0) by (intros [r H]; vm_compute in H; repeat (destruct H as [H|H]; [discriminate H|]); destruct H).
  split; [apply AppProofs.arun_exec; vm_compute; reflexivity|]. split; [vm_compute; tauto|]. split; [|split; [|split; [exact N|split; [|exact D]]]].
  - intros n. do 8 (destruct n as [|n]; [apply AppProofs.arun_exec; vm_compute; reflexivity|]). assert (E : l_es (8 + n) = []) by (destruct n; reflexivity).
    change (S (S (S (S (S (S (S (S n)))))))) with (8 + n)%nat. unfold l_os. rewrite E. assert (F : l_f (S (8 + n)) = l_f (8 + n)) by (unfold l_f; rewrite !firstn_all2; [reflexivity|cbn; lia|cbn; lia]).
    rewrite F. constructor.
  - intros n H. destruct (Nat.le_gt_cases n 7) as [L|L]; [exists 7%nat, (Ok (ATold [])); split; [exact L|vm_compute; tauto]|].
    destruct H. destruct D as [r D]. exists r. apply in_app_iff in D as [D|D]; apply in_or_app; [left; exact D|right].
    unfold until in *. replace n with (8 + (n - 8))%nat by lia. rewrite seq_app, flat_map_app. apply in_or_app. left. exact D.
  - split; [exact N|]. exists [OCalled 0 AUpdate], []. split; [reflexivity|]. split; [reflexivity|intros o []].
Qed.
