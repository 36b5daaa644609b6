(** C95: configuration parameters.  Statements only; proofs are in ConfigProofs.v. *)
From Coq Require Import String ZArith List Bool Lia.
From Verif Require Import Py Schema Registry Codec CmdClass ConfigM SpecConfig.
From Verif Require ConfigProofs.
Import ListNotations.
Open Scope Z_scope.

(** parameter 9 is read, set to 5 and read again: the old value is returned *)
Theorem C95_refuted : exists m os, memory_ok m /\ Forall sane os /\
  session os ([], m) = [RGet (Ok (VInt 300)); RSet (Ok true); RGet (Ok (VInt 300))] /\
  expected true os (fun k => option_map value_of (m k)) (fun _ => None) = [RGet (Ok (VInt 300)); RSet (Ok true); RGet (Ok (VInt 5))].
Proof.
  exists (fun k => if k =? 9 then Some [1; 44] else None), [OpGet 9 true; OpSet 9 2 5; OpGet 9 true]. split.
  - intros k bs. destruct (k =? 9); [|discriminate]. intros E. injection E as <-. split; [repeat constructor; discriminate|cbn; repeat constructor].
  - split; [repeat (apply Forall_cons; [cbn; lia|]); apply Forall_nil|]. split; vm_compute; reflexivity.
Qed.
Print Assumptions C95_refuted.
(** every session: a value set arrives in the device, if it fits, else set() raises; get() gives the value that was read last,
    if the cache may be used and there is one, else the value in the device *)
Theorem C95_partial os m : memory_ok m -> Forall sane os ->
  session os ([], m) = expected false os (fun k => option_map value_of (m k)) (fun _ => None).
Proof. exact (ConfigProofs.session_result os m). Qed.
Print Assumptions C95_partial.
(** without the cache every read gives the value set last *)
Theorem C95_uncached_partial os m : memory_ok m -> Forall sane os -> (forall k, ~ In (OpGet k true) os) ->
  session os ([], m) = expected true os (fun k => option_map value_of (m k)) (fun _ => None).
Proof. intros M S N. rewrite (ConfigProofs.session_result os m M S). exact (ConfigProofs.fresh_same os N _ _ _). Qed.
Print Assumptions C95_uncached_partial.
Example C95_example : session [OpSet 9 2 500; OpGet 9 false; OpSet 9 1 (-1); OpSet 9 1 256; OpGet 9 false; OpGet 8 true] ([], fun _ => None) =
  [RSet (Ok true); RGet (Ok (VInt 500)); RSet (Err EOverflow); RSet (Err EOverflow); RGet (Ok (VInt 500)); RGet (Err ETimeout)] /\
  memory_ok (fun _ => None) /\ Forall sane [OpSet 9 2 500; OpGet 9 false; OpSet 9 1 (-1); OpSet 9 1 256; OpGet 9 false; OpGet 8 true].
Proof. split; [vm_compute; reflexivity|]. split; [intros k bs; discriminate|]. repeat (apply Forall_cons; [cbn; lia|]); apply Forall_nil. Qed.
