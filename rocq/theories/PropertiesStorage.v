(** C65-C68, C76: persistent storage. *)
From Coq Require Import String ZArith List Bool Lia.
From Verif Require Import Py Schema Codec Text StorageM SpecStorage StorageProofs.
Import ListNotations.
Open Scope list_scope.
Open Scope string_scope.
Open Scope list_scope.
Open Scope Z_scope.

(** A node with an interviewed association class, a version class and a configuration class *)
Definition sample : supported :=
  [(133, mkCls 2 true [("groupings", SDict [(2, SObj [("maxNodes", SInt 5); ("nodes", SNodes [(7, None); (9, Some 1)])]); (1, SObj [("maxNodes", SInt 1)])])]);
   (134, mkCls 3 true [("applicationVersion", SInt 12); ("zwaveLibraryType", SInt 3)]);
   (112, mkCls 1 false [("parameters", SDict [(10, SObj [("value", SInt 255); ("size", SInt 1)])])])].
Definition blank : supported := [(112, cls0); (133, cls0); (134, cls0)].
Definition no_cut (v : py) (n : nat) : res (option ytree) := Err EOther.
Definition base0 : pystr := chars "conf".
Lemma sample_ok : node_ok sample.
Proof.
  split; [repeat (constructor; [cbn; intuition discriminate|]); constructor|].
  intros id c I. cbn in I. repeat (destruct I as [E|I]; [injection E as <- <-|]); [| | |destruct I].
  all: repeat first
    [ progress (cbn [c_attrs stored Z.eqb Pos.eqb])
    | apply ty_int | apply ty_text | apply ty_list
    | apply ty_nodes; intros n e I; cbn in I; repeat (destruct I as [E|I]; [injection E as <- <-; split; lia|]); destruct I
    | apply ty_dict; [repeat (constructor; [cbn; intuition discriminate|]); constructor
                     |intros k v I; cbn in I; repeat (destruct I as [E|I]; [injection E as <- <-|]); [..|destruct I]]
    | apply ty_obj; [repeat (constructor; [cbn; intuition discriminate|]); constructor
                    |intros n v I; cbn in I; repeat (destruct I as [E|I]; [injection E as <- <-; eexists; cbn; eauto 10|]); destruct I
                    |intros n v t I J; cbn in I, J; repeat (destruct I as [E|I]; [injection E as <- <-|]); [..|destruct I];
                       repeat (destruct J as [E|J]; [try discriminate E; injection E as <-|]); try (destruct J; fail); try discriminate] ].
Qed.

(** ** C65 *)
Theorem C65_restored : forall cut base n e s d fresh, node_ok s -> NoDup (map fst fresh) ->
  exists after, node_added cut base n e (node_updated base n e s d) fresh = (after, None) /\
  forall id c c0, dget Z.eqb id s = Some c -> dget Z.eqb id fresh = Some c0 ->
  exists c', dget Z.eqb id after = Some c' /\ c_version c' = c_version c /\
    (In id c65_classes -> forall p x, look_class p c = Some x -> look_class p c' = Some x) /\
    (In id c65_classes -> c_attrs c0 = [] -> forall p, look_class p c' = look_class p c).
Proof. exact restored. Qed.
Print Assumptions C65_restored.
Example C65_case : node_ok sample /\ NoDup (map fst blank) /\
  look_class [Attr "groupings"; Key 2; Attr "nodes"] (snd (nth 0 sample (0, cls0))) = Some (IsNodes [(7, None); (9, Some 1)]) /\
  match node_added no_cut base0 5 0 (node_updated base0 5 0 sample []) blank with
  | (after, None) => option_map (look_class [Attr "groupings"; Key 2; Attr "nodes"]) (dget Z.eqb 133 after) = Some (Some (IsNodes [(7, None); (9, Some 1)]))
                     /\ option_map (look_class [Attr "parameters"; Key 10; Attr "value"]) (dget Z.eqb 112 after) = Some (Some (IsInt 255))
                     /\ option_map c_version (dget Z.eqb 134 after) = Some 3
  | _ => False
  end.
Proof. split; [exact sample_ok|]. split; [repeat (constructor; [cbn; intuition discriminate|]); constructor|]. vm_compute. auto. Qed.

(** every attribute concerned is one of the stored ones, and so are the parts of the association and parameter tables *)
Theorem C65_attributes : (forall id n, In (id, n) kept -> exists t, In (n, t) (stored id)) /\
  In ("groupings", ADict (AObj [("maxNodes", AInt); ("nodes", ANodes)])) (stored 133) /\ In ("parameters", ADict (AObj [("value", AInt); ("size", AInt)])) (stored 112).
Proof.
  split; [|split; left; reflexivity]. intros id n I. cbn in I. repeat (destruct I as [I|I]; [injection I as <- <-; eexists; cbn; tauto|]). destruct I.
Qed.
Print Assumptions C65_attributes.

(** ** C66 *)
Theorem C66_refuted : exists s fresh after c c', node_ok s /\
  node_added no_cut base0 5 0 (node_updated base0 5 0 s []) fresh = (after, None) /\
  dget Z.eqb 112 s = Some c /\ dget Z.eqb 112 after = Some c' /\ c_interviewed c = false /\ c_interviewed c' = true.
Proof. eexists sample, blank, _, _, _. split; [exact sample_ok|]. split; [vm_compute; reflexivity|]. repeat split; vm_compute; reflexivity. Qed.
Print Assumptions C66_refuted.
Theorem C66_partial : forall cut base n e s d fresh, node_ok s -> NoDup (map fst fresh) ->
  exists after, node_added cut base n e (node_updated base n e s d) fresh = (after, None) /\
  forall id c c0, dget Z.eqb id s = Some c -> dget Z.eqb id fresh = Some c0 ->
  exists c', dget Z.eqb id after = Some c' /\ c_interviewed c' = true /\ (c_interviewed c' = c_interviewed c <-> c_interviewed c = true).
Proof. exact interviewed_back. Qed.
Print Assumptions C66_partial.
Example C66_case : node_ok sample /\ option_map c_interviewed (dget Z.eqb 133 sample) = Some true /\ option_map c_interviewed (dget Z.eqb 133 blank) = Some false.
Proof. split; [exact sample_ok|]. vm_compute. auto. Qed.

(** ** C67: right after opening the file for writing both the old and the new state are gone *)
Theorem C67_refuted : exists old new k d, node_ok old /\ node_ok new /\ d = node_updated base0 5 0 old [] /\
  node_added no_cut base0 5 0 (save_cut base0 5 0 new 1 k d) blank = (blank, Some EAttribute) /\
  node_added no_cut base0 5 0 d blank <> (blank, Some EAttribute) /\
  node_added no_cut base0 5 0 (node_updated base0 5 0 new d) blank <> (blank, Some EAttribute).
Proof.
  exists sample, sample, 1%nat, (node_updated base0 5 0 sample []). split; [exact sample_ok|]. split; [exact sample_ok|]. split; [reflexivity|].
  split; [vm_compute; reflexivity|]. split; vm_compute; discriminate.
Qed.
Print Assumptions C67_refuted.
Theorem C67_partial : forall cut base n e s parts d fresh,
  let at_ k := save_cut base n e s parts k d in
  node_added cut base n e (at_ 0%nat) fresh = node_added cut base n e d fresh /\
  node_added cut base n e (at_ 1%nat) fresh = (fresh, Some EAttribute) /\
  (forall k, (parts + 1 < k)%nat -> node_added cut base n e (at_ k) fresh = node_added cut base n e (node_updated base n e s d) fresh) /\
  (forall k n' e', (n, e) <> (n', e') -> node_added cut base n' e' (at_ k) fresh = node_added cut base n' e' d fresh).
Proof. exact crash. Qed.
Print Assumptions C67_partial.
Example C67_case : let d := node_updated base0 5 0 blank [] in
  node_added no_cut base0 5 0 (save_cut base0 5 0 sample 3 5 d) blank <> node_added no_cut base0 5 0 d blank /\ (5, 0) <> (5, 1).
Proof. split; [vm_compute|]; discriminate. Qed.

(** ** C68 *)
Theorem C68_paths : forall base n e n' e', path base n e = path base n' e' -> n = n' /\ e = e'.
Proof. exact path_inj. Qed.
Print Assumptions C68_paths.
Theorem C68_others : forall base n e n' e' s parts k d, (n, e) <> (n', e') ->
  dget pystr_eqb (path base n' e') (save_cut base n e s parts k d) = dget pystr_eqb (path base n' e') d.
Proof. exact cut_other. Qed.
Print Assumptions C68_others.
Example C68_case : path base0 1 12 <> path base0 11 2 /\ path base0 5 1 <> path base0 5 0 /\
  dget pystr_eqb (path base0 5 1) (save_cut base0 5 0 sample 3 9 (node_updated base0 5 1 sample [])) = Some (Whole (settings sample)).
Proof. split; [vm_compute; discriminate|]. split; [vm_compute; discriminate|]. vm_compute. reflexivity. Qed.

(** ** C76: association group information *)
Definition agi : supported :=
  [(89, mkCls 1 true [("groupings", SDict [(1, SObj [("profile", SInt 1); ("name", SText (chars "Lifeline")); ("commands", SList [PList [PInt 90; PInt 1]])])])])].
Lemma agi_ok : node_ok agi.
Proof.
  split; [repeat (constructor; [cbn; intuition discriminate|]); constructor|].
  intros id c I. cbn in I. destruct I as [E|[]]. injection E as <- <-.
  apply ty_obj; [repeat (constructor; [cbn; intuition discriminate|]); constructor| |].
  { intros n v [E|[]]. injection E as <- <-. eexists. left. reflexivity. }
  intros n v t [E|[]] [J|[]]. injection E as <- <-. injection J as <-.
  apply ty_dict; [repeat (constructor; [cbn; intuition discriminate|]); constructor|]. intros k v [E|[]]. injection E as <- <-.
  apply ty_obj; [repeat (constructor; [cbn; intuition discriminate|]); constructor| |].
  - intros n v [E|[E|[E|[]]]]; injection E as <- <-; eexists; cbn; eauto.
  - intros n v t [E|[E|[E|[]]]] [J|[J|[J|[]]]]; injection E as <- <-; try discriminate J; injection J as <-; constructor.
Qed.
Theorem C76_commands_refuted : exists s fresh after c c' p l, node_ok s /\
  node_added no_cut base0 5 0 (node_updated base0 5 0 s []) fresh = (after, None) /\
  dget Z.eqb 89 s = Some c /\ dget Z.eqb 89 after = Some c' /\
  look_class p c = Some (IsList l) /\ l = [PList [PInt 90; PInt 1]] /\ look_class p c' = Some (IsList [PList [PStr (chars "90"); PStr (chars "1")]]).
Proof.
  eexists agi, [(89, cls0)], _, _, _, [Attr "groupings"; Key 1; Attr "commands"], _. split; [exact agi_ok|]. split; [vm_compute; reflexivity|].
  repeat split; vm_compute; reflexivity.
Qed.
Print Assumptions C76_commands_refuted.
Theorem C76_partial : forall cut base n e s d fresh c c0, node_ok s -> NoDup (map fst fresh) ->
  dget Z.eqb 89 s = Some c -> dget Z.eqb 89 fresh = Some c0 ->
  exists after c', node_added cut base n e (node_updated base n e s d) fresh = (after, None) /\ dget Z.eqb 89 after = Some c' /\
    (forall p x, look_class p c = Some x -> (forall l, x <> IsList l) -> look_class p c' = Some x) /\
    (forall p l, look_class p c = Some (IsList l) -> forallb plain l = true -> look_class p c' = Some (IsList (map as_text l))).
Proof. exact agi_back. Qed.
Print Assumptions C76_partial.
Example C76_case : node_ok agi /\ look_class [Attr "groupings"; Key 1; Attr "name"] (snd (nth 0 agi (0, cls0))) = Some (IsText (chars "Lifeline")).
Proof. split; [exact agi_ok|reflexivity]. Qed.
