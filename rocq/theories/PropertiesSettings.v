(** C104, C105: loading any settings file.  Statements only; proofs are in StorageLoad.v. *)
From Coq Require Import String ZArith List Bool.
From Verif Require Import Py Text StorageM SpecStorage SpecSettings.
From Verif Require StorageLoad.
Import ListNotations.
Open Scope list_scope.
Open Scope string_scope.
Open Scope list_scope.
Open Scope Z_scope.

(** ** C104 *)
(** what the file says about the node's classes is set, and nothing else changes *)
Theorem C104_loads cut base n e d l s : says base n e d l -> NoDup (map fst s) -> all_readable l s ->
  exists s', node_added cut base n e d s = (s', None) /\ loaded l s s'.
Proof. exact (StorageLoad.loads cut base n e d l s). Qed.
Print Assumptions C104_loads.
(** without a file nothing changes *)
Theorem C104_absent cut base n e d s : dget pystr_eqb (place base n e) d = None -> node_added cut base n e d s = (s, None).
Proof. exact (StorageLoad.no_file cut base n e d s). Qed.
Print Assumptions C104_absent.
(** saving goes to the same place *)
Theorem C104_place base n e s d : dget pystr_eqb (place base n e) (node_updated base n e s d) = Some (Whole (settings s)).
Proof. exact (StorageLoad.saved_place base n e s d). Qed.
Print Assumptions C104_place.
(** a file written by hand: configuration without version, a product id only, a class the node does not have *)
Definition by_hand : disk := [(chars "conf/nodes/5:1.yml", Whole (PSDict [("comment", PStr (chars "mine")); ("supported", PIDict
  [(112, PSDict [("interviewed", PStr (chars "no")); ("parameters", PIDict [(7, PSDict [("value", PInt 3); ("size", PInt 1)])])]);
   (114, PSDict [("version", PInt 2); ("productID", PInt 77); ("colour", PInt 1)]);
   (133, PSDict [("version", PInt 2)])])]))].
Definition known : supported := [(114, mkCls 1 true [("manufacturerID", SInt 12)]); (112, mkCls 3 true []); (37, mkCls 1 true [])].
Definition no_cut (v : py) (n : nat) : res (option ytree) := Err EUnmodelled.
Example C104_case : (exists l, says (chars "conf") 5 1 by_hand l /\ all_readable l known /\ NoDup (map fst known)) /\
  match node_added no_cut (chars "conf") 5 1 by_hand known with
  | (s', None) => option_map c_version (dget Z.eqb 114 s') = Some 2 /\ option_map (look_class [Attr "productID"]) (dget Z.eqb 114 s') = Some (Some (IsInt 77)) /\
      option_map (look_class [Attr "manufacturerID"]) (dget Z.eqb 114 s') = Some (Some (IsInt 12)) /\ option_map c_interviewed (dget Z.eqb 114 s') = Some false /\
      option_map c_version (dget Z.eqb 112 s') = Some 0 /\ option_map c_interviewed (dget Z.eqb 112 s') = Some true /\ dget Z.eqb 37 s' = Some (mkCls 1 true [])
  | _ => False
  end.
Proof.
  split; [|vm_compute; repeat split; reflexivity]. eexists. split; [|split].
  - eexists. split; [vm_compute; reflexivity|]. split; [repeat constructor; cbn; intuition discriminate|]. split; [vm_compute; reflexivity|repeat constructor; cbn; intuition discriminate].
  - intros id c x J E. cbn [known In] in J. destruct J as [J|[J|[J|[]]]]; injection J as <- <-; cbn in E; try discriminate; injection E as <-; eexists; (split; [reflexivity|]); (split; [repeat constructor; cbn; intuition discriminate|]; split; [exact I|]); intros n t x J E; cbn in J.
    + destruct J as [J|[J|[J|[]]]]; injection J as <- <-; cbn in E; try discriminate. injection E as <-. exists (SInt 77). split; [constructor|reflexivity].
    + destruct J as [J|[]]. injection J as <- <-. cbn in E. injection E as <-. exists (SDict [(7, SObj [("value", SInt 3); ("size", SInt 1)])]). split; [|reflexivity].
      constructor; [repeat constructor; cbn; intuition discriminate|]. intros k v [J|[]]. injection J as <- <-. constructor; [repeat constructor; cbn; intuition discriminate| |].
      * intros n v [J|[J|[]]]; injection J as <- <-; eexists; cbn; eauto.
      * intros n v t [J|[J|[]]] K; injection J as <- <-; cbn in K; destruct K as [K|[K|[]]]; injection K as <-; try discriminate; constructor.
  - repeat constructor; cbn; intuition discriminate.
Qed.

(** ** C105: an unreadable entry costs the classes after it their settings *)
Definition damaged : disk := [(chars "conf/nodes/5:1.yml", Whole (PSDict [("supported", PIDict [(112, PSDict [("version", PStr (chars "two"))]); (114, PSDict [("version", PInt 2)])])]))].
Theorem C105_refuted : exists l s s' x, says (chars "conf") 5 1 damaged l /\ NoDup (map fst s) /\
  dget Z.eqb 114 l = Some (PSDict [("version", PInt 2)]) /\ In (114, cls0) s /\ node_added no_cut (chars "conf") 5 1 damaged s = (s', Some x) /\ In (114, cls0) s' /\
  node_added no_cut (chars "conf") 5 1 damaged [(114, cls0)] = ([(114, mkCls 2 false [])], None).
Proof.
  eexists _, [(112, cls0); (114, cls0)], _, _. split; [|split; [|split; [|split; [|split; [vm_compute; reflexivity|split; [|vm_compute; reflexivity]]]]]].
  - eexists. split; [vm_compute; reflexivity|]. split; [repeat constructor; cbn; intuition discriminate|]. split; [vm_compute; reflexivity|repeat constructor; cbn; intuition discriminate].
  - repeat constructor; cbn; intuition discriminate.
  - reflexivity.
  - cbn; auto.
  - cbn; auto.
Qed.
Print Assumptions C105_refuted.
(** loading stops at the first class whose entry cannot be read: those before it are loaded, those after it untouched *)
Theorem C105_partial cut base n e d l s after x : says base n e d l -> node_added cut base n e d s = (after, Some x) ->
  exists s1 id c s2 s1' c', s = s1 ++ (id, c) :: s2 /\ after = s1' ++ (id, c') :: s2 /\ In id (map fst l) /\
    node_added cut base n e d s1 = (s1', None) /\ node_added cut base n e d [(id, c)] = ([(id, c')], Some x).
Proof. exact (StorageLoad.stops cut base n e d l s after x). Qed.
Print Assumptions C105_partial.
Example C105_case : node_added no_cut (chars "conf") 5 1 damaged [(114, cls0); (112, cls0); (94, cls0)] = ([(114, mkCls 2 false []); (112, cls0); (94, cls0)], Some EValue).
Proof. vm_compute. reflexivity. Qed.
