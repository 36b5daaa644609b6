(** C123: the settings of a device are there when its node is added. *)
From Coq Require Import String ZArith List Bool Lia.
From Verif Require Import Py StorageM SpecStorage HistM SpecHist.
From Verif Require Schema Codec PropertiesStorage AppM AppProofs Hist.
Import ListNotations.
Open Scope list_scope.
Open Scope string_scope.
Open Scope list_scope.
Open Scope Z_scope.
Import PropertiesStorage.

Local Ltac ran := eexists _, _; split; [apply Hist.hrun_exec; vm_compute; reflexivity|].
Local Ltac fine := let J := fresh in split; [|split]; [intros ? ? J|intros ? ? ? J|intros ? J]; cbn [In] in J; repeat (destruct J as [J|J]; [try discriminate J|]); try (destruct J; fail); try (injection J; intros; subst); try exact sample_ok.
Local Ltac distinct := repeat (constructor; [cbn; intuition discriminate|]); constructor.

(** After a restart the node reports a configuration value before it is added: the report is saved, and nothing else is left. *)
Definition one_value : supported := [(112, mkCls 0 false [("parameters", SDict [(7, SObj [("value", SInt 1); ("size", SInt 1)])])]); (133, cls0); (134, cls0)].
Lemma one_value_ok : node_ok one_value.
Proof.
  split; [distinct|]. intros id c I. cbn in I. repeat (destruct I as [E|I]; [injection E as <- <-|]); [| | |destruct I].
  all: repeat first
    [ progress (cbn [c_attrs stored Z.eqb Pos.eqb cls0])
    | apply ty_int
    | apply ty_dict; [repeat (constructor; [cbn; intuition discriminate|]); constructor
                     |intros k v I; cbn in I; repeat (destruct I as [E|I]; [injection E as <- <-|]); [..|destruct I]]
    | apply ty_obj; [repeat (constructor; [cbn; intuition discriminate|]); constructor
                    |intros n v I; cbn in I; repeat (destruct I as [E|I]; [injection E as <- <-; eexists; cbn; eauto 10|]); destruct I
                    |intros n v t I J; cbn in I, J; repeat (destruct I as [E|I]; [injection E as <- <-|]); [..|destruct I];
                       repeat (destruct J as [E|J]; [try discriminate E; injection E as <-|]); try (destruct J; fail); try discriminate] ].
Qed.
Definition early : list hevent := [HNew 5 0 blank; HLoad 0; HChange 0 sample; HSave 0; HStop; HNew 5 0 blank; HChange 1 one_value; HSave 1; HLoad 1].
Theorem C123_refuted : exists h tr, hexec no_cut base0 early h tr /\ sound 5 0 tr /\ ~ survives 5 0 tr.
Proof.
  ran. split.
  - fine; [exact one_value_ok|distinct|distinct].
  - intros S. edestruct (S [WNew 0 5 0 blank; WLoaded 0 5 0 blank (blank, None); WSaved 0 5 0 sample; WStop] 1%nat blank [WSaved 1 5 0 one_value]) as [_ [_ R]]; [reflexivity|].
    destruct (R 133 cls0 eq_refl) as (c' & G & V & _). vm_compute in G. injection G as <-. vm_compute in V. discriminate V.
Qed.
Print Assumptions C123_refuted.
(** The application hands messages to objects that were not added yet: start-up is still asking for the next node.  The message
    is a report of parameter 7, which Configuration saves at once (Configuration.py l.127-132). *)
Definition report : Schema.val := match Codec.decode [112; 6; 7; 1; 1] with Ok m => m | Err _ => Schema.VNone end.
Theorem C123_early_refuted : exists es s tr a t o m f b, AppM.aexec AppM.app0 es s tr /\ tr = a ++ AppM.OHandle t o m f :: b /\ (forall t', ~ In (AppM.OTell t' (AppM.WAdded o)) a) /\ In (AppM.OTell 0 (AppM.WAdded o)) b /\
  Codec.decode [112; 6; 7; 1; 1] = Ok m.
Proof.
  set (es := [AppM.ECall AppM.AStartup; AppM.EAnswer 0 (Ok (AppM.ANodes [5; 6])); AppM.EAnswer 0 (Ok (AppM.AInfo [112] 4 16 1 true)); AppM.ECall (AppM.AMessage 5 (Some 0) report Schema.VNone);
    AppM.EAnswer 0 (Ok (AppM.AInfo [112] 4 16 1 true)); AppM.EAnswer 0 (Ok (AppM.ANodes [])); AppM.EAnswer 0 (Ok (AppM.ATold []))]).
  destruct (AppM.arun AppM.app0 es) as [[s tr]|] eqn:E; [|vm_compute in E; discriminate]. exists es, s, tr. pose proof (AppProofs.arun_exec _ _ _ _ E) as X. vm_compute in E. injection E as <- <-.
  match type of X with AppM.aexec _ _ _ ?l => exists (firstn 8 l), 1%nat, O, report, Schema.VNone, (skipn 9 l) end. split; [exact X|]. split; [reflexivity|]. split.
  - intros t' J. cbn in J. repeat (destruct J as [J|J]; [discriminate J|]). exact J.
  - split; [cbn; tauto|vm_compute; reflexivity].
Qed.
Print Assumptions C123_early_refuted.
(** Another device gets an id that was used before, with the versions, flags and attributes of the former one. *)
Definition again : list hevent := [HNew 5 0 blank; HLoad 0; HChange 0 sample; HSave 0; HGone 0; HNew 5 0 blank; HLoad 1].
Theorem C123_reuse_refuted : exists h tr, hexec no_cut base0 again h tr /\ sound 5 0 tr /\ ~ survives 5 0 tr.
Proof.
  ran. split.
  - fine; distinct.
  - intros S. edestruct (S [WNew 0 5 0 blank; WLoaded 0 5 0 blank (blank, None); WSaved 0 5 0 sample; WGone 0 5 0] 1%nat blank []) as [_ R]; [reflexivity|]. vm_compute in R. discriminate R.
Qed.
Print Assumptions C123_reuse_refuted.
(** Whatever happens, a node that is added gets what was saved last under its id and end point, and nothing if nothing was. *)
Theorem C123_last_partial cut base vs h tr n e a i before after x c : hexec cut base vs h tr -> tr = a ++ WLoaded i n e before (after, x) :: c -> sound n e tr -> x = None /\ restores (last_saved n e a) before after.
Proof. exact (Hist.loads_last cut base vs h tr n e a i before after x c). Qed.
Print Assumptions C123_last_partial.
(** If nothing is saved under this id before the object is added, and the id was not given up before, then the property holds. *)
Theorem C123_partial cut base vs h tr n e a i fresh b before after x c : hexec cut base vs h tr -> tr = a ++ WNew i n e fresh :: b ++ WLoaded i n e before (after, x) :: c -> sound n e tr ->
  (forall j s, ~ In (WSaved j n e s) b) -> (forall j, ~ In (WGone j n e) a) -> x = None /\ restores (due n e a) before after.
Proof. exact (Hist.settings_survive cut base vs h tr n e a i fresh b before after x c). Qed.
Print Assumptions C123_partial.

(** a restart; another node and an end point of the same node are saved and given up meanwhile *)
Definition restart : list hevent :=
  [HNew 5 0 blank; HLoad 0; HNew 6 0 blank; HNew 5 1 blank; HChange 0 sample; HSave 0; HSave 1; HSave 2; HGone 2; HStop; HNew 5 0 blank; HNew 6 0 blank; HSave 4; HLoad 3].
Example C123_case : exists h tr, hexec no_cut base0 restart h tr /\ sound 5 0 tr /\
  exists a b before after, tr = a ++ WNew 3 5 0 blank :: b ++ [WLoaded 3 5 0 before (after, None)] /\ (forall j s, ~ In (WSaved j 5 0 s) b) /\ (forall j, ~ In (WGone j 5 0) a) /\
    due 5 0 a = Some sample /\ option_map c_version (dget Z.eqb 133 after) = Some 2 /\ option_map c_version (dget Z.eqb 133 before) = Some 0.
Proof.
  ran. split; [fine; distinct|]. match goal with |- exists _ _ _ _, ?l = _ /\ _ => exists (firstn 9 l), [WNew 4 6 0 blank; WSaved 4 6 0 blank] end. eexists _, _. split; [reflexivity|].
  split; [intros j s J; cbn in J; repeat (destruct J as [J|J]; [discriminate J|]); exact J|]. split; [intros j J; cbn in J; repeat (destruct J as [J|J]; [discriminate J|]); exact J|].
  split; [reflexivity|]. split; reflexivity.
Qed.
