(** C53-C56, C72-C74: command classes.  Statements only; proofs are in ClassProofs.v. *)
From Coq Require Import String ZArith List Bool Lia.
From Verif Require Import Py Schema Registry Codec Listen NodeM CmdClass SpecNode SpecClass SpecBits.
From Verif Require ClassProofs.
Import ListNotations.
Open Scope list_scope.
Open Scope string_scope.
Open Scope list_scope.
Open Scope Z_scope.

(** ** C53 *)
Theorem C53_interviewed id h : cc_interviewed (fst (interviews id cc0 h)) = true <-> exists h' a, h = h' ++ [a] /\ version_known id h /\ completes a.
Proof. exact (ClassProofs.interviewed_iff id h). Qed.
Print Assumptions C53_interviewed.
Theorem C53_version id h : cc_version (fst (interviews id cc0 h)) <> 0 <-> version_known id h.
Proof. exact (proj1 (ClassProofs.after_version id h)). Qed.
Print Assumptions C53_version.
(** the interview of a class does not start before its version is known *)
Theorem C53_starts id h a o r : interview_once id a (fst (interviews id cc0 h)) = (fst (fst (interview_once id a (fst (interviews id cc0 h)))), o, r) -> In IStarts o -> version_known id (h ++ [a]).
Proof. exact (ClassProofs.starts_known id h a _ o r eq_refl). Qed.
Print Assumptions C53_starts.
Example C53_example : let h := [mkAt (Err ETimeout) (Ok None); mkAt (Ok 3) (Err ETimeout); mkAt (Ok 3) (Ok None)] in
  interviews 133 cc0 h = (mkCC 3 true, [([IAsksVersion], Ok None); ([IAsksVersion; IUpdated; IStarts], Ok (Some false)); ([IStarts; IUpdated], Ok None)]) /\ version_known 133 h /\ completes (mkAt (Ok 3) (Ok None)).
Proof.
  split; [reflexivity|]. split; [split; [lia|]; exists (mkAt (Ok 3) (Ok None)), 3; cbn; split; [auto|]; split; [reflexivity|lia]|].
  exists None. split; [reflexivity|discriminate].
Qed.

(** ** C54 *)
(** [hdr]: precision (3 bits), scale (2 bits), size (3 bits) *)
Theorem C54_filter version types ty hdr v tl ls : 5 <= version -> bytes_ok (ty :: hdr :: v ++ tl) -> zlen v = hdr mod 8 ->
  exists m, decode (49 :: 5 :: ty :: hdr :: v ++ tl) = Ok m /\
    (In SClassListeners (fst (class_handle m (mkR (Some (sensor_report version types m)) ls))) <-> exists mask, dget Z.eqb ty types = Some mask /\ Z.testbit mask (hdr / 8 mod 4) = true).
Proof. exact (ClassProofs.sensor_filter version types ty hdr v tl ls). Qed.
Print Assumptions C54_filter.
Theorem C54_old_versions version types m : version < 5 -> sensor_report version types m = Ok false.
Proof. exact (ClassProofs.sensor_filter_old version types m). Qed.
Print Assumptions C54_old_versions.
Example C54_example : exists m, decode [49; 5; 1; 42; 1; 10] = Ok m /\ fst (class_handle m (mkR (Some (sensor_report 5 [(1, 2)] m)) [])) = [SHandler; SClassListeners] /\
  fst (class_handle m (mkR (Some (sensor_report 5 [(1, 1)] m)) [])) = [SHandler] /\ fst (class_handle m (mkR (Some (sensor_report 5 [(3, 2)] m)) [])) = [SHandler].
Proof. eexists. split; [vm_compute; reflexivity|]. vm_compute. auto. Qed.

(** ** C55 *)
Theorem C55_minimal n send ask gs d gs' r : setup_lifeline n send ask gs = (d, gs', r) ->
  let needed := supports n 94 = true /\ exists g, dget Z.eqb 1 gs = Some g /\ ~ controller_in (g_nodes g) in
  (~ needed -> d = [] /\ gs' = gs /\ r = Ok tt) /\
  (needed -> exists c d', d = DSet c :: d' /\ (forall x, ~ In (DSet x) d') /\
     compose c = Ok (if supports n 96 && supports n 142 then [142; 1; 1; 0; 1; 0] else [133; 1; 1; 1])).
Proof. exact (ClassProofs.lifeline_set n send ask gs d gs' r). Qed.
Print Assumptions C55_minimal.
Theorem C55_idempotent n send ask gs mx l : (forall q, exists m, ask q = Ok m /\ lists_members m 1 mx l) -> controller_in l ->
  forall d gs' r, setup_lifeline n send ask gs = (d, gs', r) -> r = Ok tt ->
  forall send' ask', setup_lifeline n send' ask' gs' = ([], gs', Ok tt).
Proof. exact (ClassProofs.lifeline_again n send ask gs mx l). Qed.
Print Assumptions C55_idempotent.
Example C55_example : exists m, decode [133; 3; 1; 5; 0; 9; 1] = Ok m /\ lists_members m 1 5 [(9, None); (1, None)] /\ controller_in [(9, None); (1, None)] /\
  exists q c, setup_lifeline (mkCls [(94, false)] []) (fun _ => Ok true) (fun _ => Ok m) [(1, mkG 5 [(9, None)])] = ([DSet c; DGet q], [(1, mkG 5 [(9, None); (1, None)])], Ok tt) /\
  compose c = Ok [133; 1; 1; 1] /\ compose q = Ok [133; 2; 1].
Proof.
  eexists. split; [vm_compute; reflexivity|]. split; [do 4 eexists; split; [reflexivity|]; split; [reflexivity|]; split; [do 2 eexists; reflexivity|reflexivity]|].
  split; [left; cbn; auto|]. do 2 eexists. split; [vm_compute; reflexivity|]. split; vm_compute; reflexivity.
Qed.

(** ** C56 *)
(** False in two ways: a measured value that is equal but has another scale is not stored, and setting a bit field to the
    value it already has is announced as a change *)
Theorem C56_scale_refuted : exists v w d, setattr (s_attrs m_SensorMultilevel_Report) "sensorValue" w [("sensorValue", v)] = Ok (d, None) /\
  v = VFloatT 200 1 2 0 /\ w = VFloatT 200 1 2 1 /\ aget "sensorValue" d = Some v.
Proof. exists (VFloatT 200 1 2 0), (VFloatT 200 1 2 1), [("sensorValue", VFloatT 200 1 2 0)]. repeat split. Qed.
Print Assumptions C56_scale_refuted.
Theorem C56_flag_refuted : exists d, setattr (s_attrs m_Supervision_Report) "sessionID" (VInt 5) [("sessionID", VB 6 5)] = Ok (d, Some (VB 6 5)) /\ d = [("sessionID", VB 6 5)].
Proof. exists [("sessionID", VB 6 5)]. split; reflexivity. Qed.
Print Assumptions C56_flag_refuted.
(** Proved: the new value is converted to the declared type; it is stored and announced unless python considers it equal to the
    old one, in which case nothing happens; other attributes are untouched. *)
Theorem C56_assign_partial attrs name v d d' ev t : declared_as attrs name t -> setattr attrs name v d = Ok (d', ev) ->
  exists w, converted t v w /\ (forall n, n <> name -> aget n d' = aget n d) /\
    ((ev = Some w /\ aget name d' = Some w /\ (forall o, aget name d = Some o -> py_eq o w = Ok false)) \/
     (ev = None /\ d' = d /\ exists o, aget name d = Some o /\ py_eq o w = Ok true)).
Proof. exact (ClassProofs.assign attrs name v d d' ev t). Qed.
Print Assumptions C56_assign_partial.
(** for integers, byte strings, texts, addresses and member lists equal values are the same value *)
Theorem C56_exact_partial t u w : exact t = true -> has_type t u -> has_type t w -> py_eq u w = Ok true -> u = w.
Proof. exact (ClassProofs.exact_eq t u w). Qed.
Print Assumptions C56_exact_partial.
Example C56_example : declared_as (s_attrs m_Association_Report) "maxNodesSupported" (TInt false 1) /\
  setattr (s_attrs m_Association_Report) "maxNodesSupported" (VInt 5) [("maxNodesSupported", VI false 1 4)] = Ok ([("maxNodesSupported", VI false 1 5)], Some (VI false 1 5)).
Proof. split; [eexists; split; reflexivity|reflexivity]. Qed.

(** ** C72 *)
(** what [get] answers after the reports [ms] *)
Theorem C72_cache ms : (forall m, In m ms -> exists k v sz, reports_parameter m k v sz) -> forall k ask,
  match cfg_get k true ask (fold_left (fun ps m => fst (cfg_report m ps)) ms []) with
  | ([], r) => exists a m b v sz, ms = a ++ m :: b /\ reports_parameter m k v sz /\ (forall m' k' v' sz', In m' b -> reports_parameter m' k' v' sz' -> k' <> k) /\ r = Ok (VInt v)
  | (q :: qs, r) => qs = [] /\ (0 <= k < 256 -> compose q = Ok [112; 5; k]) /\ (r = do m <- ask q; Ok (getattr m "value")) /\ forall m k' v sz, In m ms -> reports_parameter m k' v sz -> k' <> k
  end.
Proof. exact (ClassProofs.cfg_latest ms). Qed.
Print Assumptions C72_cache.
(** a read that is not to use the cache always asks the node *)
Theorem C72_uncached ps k ask : 0 <= k < 256 -> exists q, compose q = Ok [112; 5; k] /\ cfg_get k false ask ps = ([q], do m <- ask q; Ok (getattr m "value")).
Proof. exact (ClassProofs.cfg_uncached ps k ask). Qed.
Print Assumptions C72_uncached.
Example C72_example : exists m, decode [112; 6; 9; 2; 1; 244] = Ok m /\ reports_parameter m 9 500 2 /\ cfg_get 9 true (fun _ => Err ETimeout) (fst (cfg_report m [])) = ([], Ok (VInt 500)).
Proof.
  eexists. split; [vm_compute; reflexivity|]. split; [|vm_compute; reflexivity]. eexists. split; [reflexivity|]. split; [do 2 eexists; reflexivity|]. split; [reflexivity|]. eexists. reflexivity.
Qed.

(** ** C73 *)
Theorem C73_sensor_interview version ms ts (f : Z -> Z) scales types : 5 <= version -> getattr ms "bitMask" = VSensors ts -> (forall t, In t ts -> 0 <= t < 256) ->
  (forall t, In t ts -> exists m, scales t = Ok m /\ to_int (getattr m "scaleBitMask") = Ok (f t)) ->
  exists qs types', sensor_interview version (Ok ms) scales types = (qs, types', Ok None) /\
    map compose qs = Ok [49; 1] :: map (fun t => Ok [49; 3; t]) ts /\ forall k, dget Z.eqb k types' = if existsb (Z.eqb k) ts then Some (f k) else dget Z.eqb k types.
Proof. exact (ClassProofs.sensor_interview_ok version ms ts f scales types). Qed.
Print Assumptions C73_sensor_interview.
Example C73_example : exists ms m1 m3, decode [49; 2; 5] = Ok ms /\ getattr ms "bitMask" = VSensors [1; 3] /\ decode [49; 6; 1; 3] = Ok m1 /\ decode [49; 6; 3; 1] = Ok m3 /\
  let '(_, ty, _) := sensor_interview 5 (Ok ms) (fun t => if t =? 1 then Ok m1 else Ok m3) [] in ty = [(1, 3); (3, 1)].
Proof. do 3 eexists. split; [vm_compute; reflexivity|]. split; [reflexivity|]. split; [vm_compute; reflexivity|]. split; [vm_compute; reflexivity|]. vm_compute. reflexivity. Qed.

(** ** C74 *)
Theorem C74_association_interview n send ask answers num m0 : (num < 256)%nat ->
  (forall q, compose q = Ok [133; 5] -> ask O q = Ok m0) -> to_int (getattr m0 "supportedGroupings") = Ok (Z.of_nat num) -> answers_groups n answers ask ->
  exists d0 d dl gs gs' r k, association_interview n send ask [] = (d0 :: d ++ dl, gs', r) /\ setup_lifeline n send (ask k) gs = (dl, gs', r) /\ asks d0 [133; 5] /\
    Forall2 asks d (map (fun i => [if supports n 142 then 142 else 133; 2; Z.of_nat i]) (seq 1 num)) /\
    forall g, dget Z.eqb g gs = if (1 <=? g) && (g <=? Z.of_nat num) then Some (match answers g with Some (mx, l) => mkG mx l | None => mkG 0 [] end) else None.
Proof. exact (ClassProofs.association_all_asks n send ask answers num m0). Qed.
Print Assumptions C74_association_interview.
Example C74_example : exists m0 m2, decode [133; 6; 2] = Ok m0 /\ decode [133; 3; 2; 5; 0; 9] = Ok m2 /\
  let ask := fun (k : nat) q => match compose q with Ok [133; 5] => Ok m0 | Ok [133; 2; 2] => Ok m2 | _ => Err ETimeout end in
  answers_groups (mkCls [] []) (fun i => if i =? 2 then Some (5, [(9, None)]) else None) ask /\
  let '(_, gs, r) := association_interview (mkCls [] []) (fun _ => Ok true) ask [] in gs = [(1, mkG 0 []); (2, mkG 5 [(9, None)])] /\ r = Ok tt.
Proof.
  do 2 eexists. split; [vm_compute; reflexivity|]. split; [vm_compute; reflexivity|]. split; [|vm_compute; auto].
  intros k q i _ E. rewrite E. cbn [supports n_supported dmem dget]. destruct (Z.eqb_spec i 2) as [->|N].
  - eexists. split; [reflexivity|]. do 4 eexists. split; [reflexivity|]. split; [reflexivity|]. split; [do 2 eexists; reflexivity|reflexivity].
  - destruct i as [|[[]|[[]|[]|]|]|]; try reflexivity; congruence.
Qed.
