(** Command classes: commandclass/CommandClass.py (interview), SensorMultilevel.py, Association.py, Configuration.py,
    AssociationGrpInfo.py.  What the node answers is given by functions or values (the environment).
    Simplification: nothing else changes the command class while one of these coroutines waits for its answer. *)
From Coq Require Import String ZArith List Bool.
From Verif Require Import Py Schema Registry Codec NodeM.
Import ListNotations.
Open Scope list_scope.
Open Scope string_scope.
Open Scope list_scope.
Open Scope Z_scope.

(** ** Interview: CommandClass.py l.64-89 interviewDecorator, l.156-170 requestVersion *)
Record cc := mkCC { cc_version : Z; cc_interviewed : bool }.
Definition cc0 : cc := mkCC 0 false.                                         (* l.95-101 *)
(** one call of [interview()]: [at_version] is what the version request yields (TimeoutError, another exception or
    the reported version), [at_body] what the class's own interview returns (None, True, False) or raises *)
Record attempt := mkAt { at_version : res Z; at_body : res (option bool) }.
Inductive iobs := IAsksVersion | IStarts | IUpdated.
(** l.156-170; [id] is the command class id *)
Definition request_version (id : Z) (v : res Z) (s : cc) : cc * list iobs * res Z :=
  if id =? 0 then (s, [], Ok 0)
  else match v with
       | Err ETimeout => (s, [IAsksVersion], Ok 0)
       | Err e => (s, [IAsksVersion], Err e)
       | Ok n => (mkCC n (cc_interviewed s), [IAsksVersion; IUpdated], Ok n)
       end.
(** l.67-87 *)
Definition interview_once (id : Z) (a : attempt) (s : cc) : cc * list iobs * res (option bool) :=
  let '(s, o, v) := if cc_version s =? 0 then request_version id (at_version a) s else (s, [], Ok (cc_version s)) in
  match v with
  | Err e => (s, o, Err e)
  | Ok v =>
      if v =? 0 then (s, o, Ok None)
      else
        let s := mkCC (cc_version s) false in
        match at_body a with
        | Err ETimeout => (s, o ++ [IStarts], Ok (Some false))
        | Err e => (s, o ++ [IStarts], Err e)
        | Ok (Some false) => (s, o ++ [IStarts; IUpdated], Ok (Some false))
        | Ok r => (mkCC (cc_version s) true, o ++ [IStarts; IUpdated], Ok r)
        end
  end.
(** calls one after the other *)
Fixpoint interviews (id : Z) (s : cc) (h : list attempt) : cc * list (list iobs * res (option bool)) :=
  match h with
  | [] => (s, [])
  | a :: h' => let '(s, o, r) := interview_once id a s in let (s, l) := interviews id s h' in (s, (o, r) :: l)
  end.

(** ** SensorMultilevel.py l.160-173 __report__: [types] is supportedTypes; returning None counts as False *)
Definition sensor_report (version : Z) (types : list (Z * Z)) (m : val) : res bool :=
  if version <? 5 then Ok false
  else
    match match to_int (getattr m "sensorType") with Ok k => dget Z.eqb k types | Err _ => None end with
    | None => Ok true
    | Some scales =>
        if scales =? 0 then Ok true
        else match getattr m "sensorValue" with
             | VFloatT _ _ _ scale => Ok (Z.land scales (Z.shiftl 1 scale) =? 0)
             | _ => Err EAttribute
             end
    end.
(** l.175-186 interview: [sensors] answers SupportedGetSensor, [scales t] answers SupportedGetScale for [t].
    Result: requests sent, table, result *)
Fixpoint sensor_scales (scales : Z -> res val) (ts : list Z) (types : list (Z * Z)) : list val * list (Z * Z) * res (option bool) :=
  match ts with
  | [] => ([], types, Ok None)
  | t :: ts' =>
      match new_msg m_SensorMultilevel_SupportedGetScale [("sensorType", VInt t)] with
      | Err e => ([], types, Err e)
      | Ok q =>
          match (do m <- scales t; to_int (getattr m "scaleBitMask")) with
          | Err e => ([q], types, Err e)
          | Ok mask => let '(qs, types, r) := sensor_scales scales ts' (dset Z.eqb t mask types) in (q :: qs, types, r)
          end
      end
  end.
Definition sensor_interview (version : Z) (sensors : res val) (scales : Z -> res val) (types : list (Z * Z)) : list val * list (Z * Z) * res (option bool) :=
  if version <? 5 then ([], types, Ok None)
  else
    match new_msg m_SensorMultilevel_SupportedGetSensor [] with
    | Err e => ([], types, Err e)
    | Ok q =>
        match sensors with
        | Err e => ([q], types, Err e)
        | Ok m => match getattr m "bitMask" with
                  | VSensors ts => let '(qs, types, r) := sensor_scales scales ts types in (q :: qs, types, r)
                  | _ => ([q], types, Err EType)     (* None is not iterable *)
                  end
        end
    end.

(** ** Association.py l.95-103 Group, l.105-124 Groupings *)
Record group := mkG { g_max : Z; g_nodes : list (Z * option Z) }.
Definition groupings := list (Z * group).
(** l.28-35 contains *)
Definition contains (l : list (Z * option Z)) (n e : Z) : bool :=
  existsb (fun p => (n =? fst p) && (e =? match snd p with None => 0 | Some x => x end)) l.
(** l.108-115 setNumGroups *)
Definition set_num_groups (n : Z) (gs : groupings) : groupings :=
  fold_left (fun gs i => if dmem Z.eqb (Z.of_nat i) gs then gs else dset Z.eqb (Z.of_nat i) (mkG 0 []) gs) (seq 1 (Z.to_nat n)) gs.

Inductive dialogue := DSet (cmd : val) | DGet (cmd : val).
(** l.145-161 interviewGrouping.  [ask]: what sendAndReceive yields for a request *)
Definition interview_group (n : classes) (i : Z) (ask : val -> res val) (gs : groupings) : list dialogue * groupings * res unit :=
  match dget Z.eqb i gs with
  | None => ([], gs, Err EKey)
  | Some g =>
      match new_msg (if supports n 142 then m_MultiChannelAssociation_MultiChannelGet else m_Association_Get) [("groupingIdentifier", VInt i)] with
      | Err e => ([], gs, Err e)
      | Ok q =>
          match ask q with
          | Err e => ([DGet q], gs, Err e)
          | Ok m =>
              match to_int (getattr m "groupingIdentifier") with
              | Ok j =>
                  if j =? i then
                    match to_int (getattr m "maxNodesSupported") with        (* l.160: uint8_t( ) *)
                    | Err e => ([DGet q], gs, Err e)
                    | Ok mx =>
                        match setattr_coerce TNodes (getattr m "nodes") with (* l.161 *)
                        | Ok (VNodes l) => ([DGet q], dset Z.eqb i (mkG mx l) gs, Ok tt)
                        | Ok _ => ([DGet q], dset Z.eqb i (mkG mx (g_nodes g)) gs, Err EUnmodelled)
                        | Err e => ([DGet q], dset Z.eqb i (mkG mx (g_nodes g)) gs, Err e)
                        end
                    end
                  else ([DGet q], gs, Ok tt)
              | Err _ => ([DGet q], gs, Ok tt)       (* None != identifier *)
              end
          end
      end
  end.
(** l.163-189 setupLifeLine for group 1.  [send]: what Node.send yields; [n]: the node's command classes
    (94 Z-Wave Plus info, 96 multi channel, 142 multi channel association) *)
Definition setup_lifeline (n : classes) (send : val -> res bool) (ask : val -> res val) (gs : groupings) : list dialogue * groupings * res unit :=
  if negb (supports n 94) then ([], gs, Ok tt)
  else match dget Z.eqb 1 gs with
       | None => ([], gs, Ok tt)
       | Some g =>
           if contains (g_nodes g) 1 0 then ([], gs, Ok tt)
           else
             match (if supports n 96 && supports n 142
                    then new_msg m_MultiChannelAssociation_MultiChannelSet [("groupingIdentifier", VInt 1); ("nodes", VList [VTuple [VInt 1; VInt 0]])]
                    else new_msg m_Association_Set [("groupingIdentifier", VInt 1); ("nodes", VList [VInt 1])]) with
             | Err e => ([], gs, Err e)
             | Ok c =>
                 match send c with
                 | Err e => ([DSet c], gs, Err e)
                 | Ok _ => let '(d, gs, r) := interview_group n 1 ask gs in (DSet c :: d, gs, r)
                 end
             end
       end.

(** l.133-143 interview: the groups are visited in the order of the dictionary; time outs are skipped.
    [ask k]: what the [k]th request yields (the caller numbers them: 0 is GroupingsGet) *)
Fixpoint visit_groups (n : classes) (ids : list Z) (ask : nat -> val -> res val) (k : nat) (gs : groupings) : list dialogue * groupings * res unit * nat :=
  match ids with
  | [] => ([], gs, Ok tt, k)
  | i :: ids' =>
      let '(d, gs, r) := interview_group n i (ask k) gs in
      match r with
      | Ok _ | Err ETimeout => let '(d', gs, r, k) := visit_groups n ids' ask (S k) gs in (d ++ d', gs, r, k)
      | Err e => (d, gs, Err e, S k)
      end
  end.
Definition association_interview (n : classes) (send : val -> res bool) (ask : nat -> val -> res val) (gs : groupings) : list dialogue * groupings * res unit :=
  match new_msg m_Association_GroupingsGet [] with
  | Err e => ([], gs, Err e)
  | Ok q =>
      match (do m <- ask O q; to_int (getattr m "supportedGroupings")) with
      | Err e => ([DGet q], gs, Err e)
      | Ok num =>
          let gs := set_num_groups num gs in
          let '(d, gs, r, k) := visit_groups n (map fst gs) ask 1 gs in
          match r with
          | Err e => (DGet q :: d, gs, Err e)
          | Ok _ => let '(d', gs, r) := setup_lifeline n send (ask k) gs in (DGet q :: d ++ d', gs, r)
          end
      end
  end.

(** ** Configuration.py l.125-132 __report__, l.134-139 get.  parameters: number -> (value, size) *)
Definition parameters := list (Z * (Z * Z)).
(** a parameter that is created by the report and not completed has default values (util.py l.69-78) *)
Definition cfg_report (m : val) (ps : parameters) : parameters * res bool :=
  match to_int (getattr m "parameterNumber") with
  | Err e => (ps, Err e)
  | Ok k =>
      let '(v0, s0) := match dget Z.eqb k ps with Some p => p | None => (0, 0) end in
      match to_int (getattr m "value") with
      | Err e => (dset Z.eqb k (v0, s0) ps, Err e)
      | Ok v => match to_int (getattr m "size") with
                | Err e => (dset Z.eqb k (v, s0) ps, Err e)
                | Ok sz => (dset Z.eqb k (v, sz) ps, Ok true)
                end
      end
  end.
(** requests sent and the result *)
Definition cfg_get (k : Z) (cached : bool) (ask : val -> res val) (ps : parameters) : list val * res val :=
  match (if cached then dget Z.eqb k ps else None) with
  | Some (v, _) => ([], Ok (VInt v))
  | None => match new_msg m_Configuration_Get [("parameterNumber", VInt k)] with
            | Err e => ([], Err e)
            | Ok q => ([q], do m <- ask q; Ok (getattr m "value"))
            end
  end.
