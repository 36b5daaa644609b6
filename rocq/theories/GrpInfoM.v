(** Association group information: commandclass/AssociationGrpInfo.py l.164-203 (handlers and interview), with
    CommandClass.py l.64-89 (the interview wrapper), node.py l.124-131 and persistantstorage.py l.45-50 (saving).

    Every received report is handled in a task of its own; a task is suspended while it awaits [self.send] and the scheduler may
    interleave the tasks in any order.  [Node.send] is the environment: it yields a boolean or raises.
    Simplifications: the version of the class is known when [interview] is called (otherwise CommandClass.py l.70-79 asks for it
    first); the node's storage is not locked and its other command classes do not change; a save takes place at the moment
    of the signal. *)
From Coq Require Import String ZArith List Bool.
From Verif Require Import Py Schema Registry Codec StorageM.
Import ListNotations.
Open Scope list_scope.
Open Scope string_scope.
Open Scope list_scope.
Open Scope Z_scope.

(** l.26-35 Group: attributes that have not been set are absent *)
Record group := mkGroup { gr_profile : Z; gr_name : option pystr; gr_commands : option (list val) }.
Definition groupings := list (Z * group).                                    (* l.38, l.169 *)

(** a dictionary key taken from a report; an attribute missing from the report is None, which is no key of the dictionary *)
Definition key (v : val) : option Z := match to_int v with Ok z => Some z | Err _ => None end.
(** str(v) as done when the name is assigned (util.py l.93-103): texts are kept, None becomes the text "None" *)
Definition as_name (v : val) : res pystr :=
  match v with VStr s => Ok s | VNone => Ok (chars "None") | _ => Err EUnmodelled end.
(** list(v) *)
Definition as_list (v : val) : res (list val) :=
  match v with VList l => Ok l | VNone => Err EType | _ => Err EUnmodelled end.
(** an attribute of one entry of the report: util.py l.69-78, the default of the number types is zero *)
Definition entry_int (e : val) (name : string) : res Z :=
  match e with
  | VObj CGroupInfo d => match aget name d with Some v => to_int v | None => Ok 0 end
  | _ => Err EUnmodelled
  end.

(** l.171-174; the right-hand side is evaluated first *)
Definition on_commands (m : val) (gs : groupings) : groupings * res bool :=
  match as_list (getattr m "commandClass") with
  | Err e => (gs, Err e)
  | Ok l =>
      match key (getattr m "groupingIdentifier") with
      | None => (gs, Err EKey)
      | Some k => match dget Z.eqb k gs with
                  | None => (gs, Err EKey)
                  | Some g => (dset Z.eqb k (mkGroup (gr_profile g) (gr_name g) (Some l)) gs, Ok true)
                  end
      end
  end.
(** l.188-193 *)
Definition on_name (m : val) (gs : groupings) : groupings * res bool :=
  match key (getattr m "groupingIdentifier") with
  | None => (gs, Ok true)
  | Some k =>
      match dget Z.eqb k gs with
      | None => (gs, Ok true)
      | Some g => match as_name (getattr m "name") with
                  | Err e => (gs, Err e)
                  | Ok s => (dset Z.eqb k (mkGroup (gr_profile g) (Some s) (gr_commands g)) gs, Ok true)
                  end
      end
  end.

(** ** Tasks *)
(** a call: the handler of a report, or [interview()] *)
Inductive acall := CName (m : val) | CCommands (m : val) | CInfo (m : val) | CInterview.
(** where a task is: it awaits the sending of the name request or of the command list request for the group [k], with the
    entries [rest] still to do; or the sending of the interview's request; or it has ended *)
Inductive apc := PName (k : Z) (rest : list val) | PCommands (rest : list val) | PInterview | PEnd (r : res bool).
Record astate := mkAS {
  a_groups : groupings;
  a_version : Z; a_interviewed : bool;
  a_others : supported;                  (* the other command classes of the node *)
  a_base : pystr; a_node : Z; a_ep : Z;  (* where the node's settings are stored *)
  a_disk : disk;
  a_tasks : list apc }.
Inductive aobs :=
| OCall (t : nat) (c : acall)            (* task [t] starts *)
| OSend (t : nat) (q : val)              (* task [t] calls [self.send(q)] *)
| OEnd (t : nat) (r : res bool)          (* task [t] ends *)
| OSaved.                                (* the node's settings were written *)
Inductive aevent :=
| ECall (c : acall)
| ESent (t : nat) (r : res bool)         (* the [self.send] that task [t] awaits is over *)
| EOther.                                (* another command class of the node signals an update *)

Definition with_groups (gs : groupings) (s : astate) : astate :=
  mkAS gs (a_version s) (a_interviewed s) (a_others s) (a_base s) (a_node s) (a_ep s) (a_disk s) (a_tasks s).
Definition with_interviewed (b : bool) (s : astate) : astate :=
  mkAS (a_groups s) (a_version s) b (a_others s) (a_base s) (a_node s) (a_ep s) (a_disk s) (a_tasks s).
Definition with_disk (d : disk) (s : astate) : astate :=
  mkAS (a_groups s) (a_version s) (a_interviewed s) (a_others s) (a_base s) (a_node s) (a_ep s) d (a_tasks s).
Fixpoint set_nth {A} (n : nat) (x : A) (l : list A) : list A :=
  match l, n with [], _ => [] | _ :: l', O => x :: l' | y :: l', S n' => y :: set_nth n' x l' end.
Definition with_pc (t : nat) (p : apc) (s : astate) : astate :=
  mkAS (a_groups s) (a_version s) (a_interviewed s) (a_others s) (a_base s) (a_node s) (a_ep s) (a_disk s) (set_nth t p (a_tasks s)).
Definition new_task (s : astate) : astate :=
  mkAS (a_groups s) (a_version s) (a_interviewed s) (a_others s) (a_base s) (a_node s) (a_ep s) (a_disk s) (a_tasks s ++ [PEnd (Ok true)]).

(** the class as the storage sees it: l.41-42, util.py l.80-87.  [py_of_val]: the plain python data in a command list *)
Fixpoint py_of_val (v : val) : py :=
  match v with
  | VList l => PList (map py_of_val l)
  | _ => PInt (match to_int v with Ok z => z | Err _ => 0 end)
  end.
Definition group_attrs (g : group) : sval :=
  SObj ([("profile", SInt (gr_profile g))] ++ match gr_name g with Some n => [("name", SText n)] | None => [] end ++
        match gr_commands g with Some l => [("commands", SList (map py_of_val l))] | None => [] end).
Definition class_attrs_of (gs : groupings) : list (string * sval) := [("groupings", SDict (map (fun e => (fst e, group_attrs (snd e))) gs))].
Definition node_state (s : astate) : supported :=
  (89, StorageM.mkCls (a_version s) (a_interviewed s) (class_attrs_of (a_groups s))) :: a_others s.
(** speak("commandClassUpdated"): node.py l.124-131, persistantstorage.py l.45-50 *)
Definition updated (s : astate) : astate * list aobs :=
  (with_disk (node_updated (a_base s) (a_node s) (a_ep s) (node_state s) (a_disk s)) s, [OSaved]).

Definition finish (t : nat) (r : res bool) (s : astate) : astate * list aobs := (with_pc t (PEnd r) s, [OEnd t r]).
(** l.178-186, from the next entry on: at most one [send] is reached *)
Definition info_next (t : nat) (es : list val) (s : astate) : astate * list aobs :=
  match es with
  | [] => finish t (Ok true) s
  | e :: rest =>
      match entry_int e "groupingIdentifier", entry_int e "profile" with
      | Ok k, Ok p =>
          let s := with_groups (dset Z.eqb k (mkGroup p None None) (a_groups s)) s in
          match new_msg m_AssociationGrpInfo_GroupNameGet [("groupingIdentifier", VI false 1 k)] with
          | Err x => finish t (Err x) s
          | Ok q => (with_pc t (PName k rest) s, [OSend t q])
          end
      | Err x, _ => finish t (Err x) s
      | _, Err x => finish t (Err x) s
      end
  end.
Definition commands_next (t : nat) (k : Z) (rest : list val) (s : astate) : astate * list aobs :=
  match new_msg m_AssociationGrpInfo_GroupCommandListGet [("allowCache", VBool true); ("groupingIdentifier", VI false 1 k)] with
  | Err x => finish t (Err x) s
  | Ok q => (with_pc t (PCommands rest) s, [OSend t q])
  end.
(** l.195-200 with CommandClass.py l.80-81 *)
Definition interview_start (t : nat) (s : astate) : astate * list aobs :=
  match new_msg m_AssociationGrpInfo_GroupInfoGet [("refreshCache", VBool false); ("listMode", VBool true); ("groupingIdentifier", VInt 0)] with
  | Err x => finish t (Err x) (with_interviewed false s)
  | Ok q => (with_pc t PInterview (with_interviewed false s), [OSend t q])
  end.
(** CommandClass.py l.81-87 around l.198-203 *)
Definition interview_end (t : nat) (r : res bool) (s : astate) : astate * list aobs :=
  match r with
  | Err ETimeout => finish t (Ok false) s
  | Err x => finish t (Err x) s
  | Ok _ => let (s, o) := updated (with_interviewed true s) in let (s, o') := finish t (Ok true) s in (s, o ++ o')
  end.

Definition astep (s : astate) (e : aevent) : option (astate * list aobs) :=
  match e with
  | ECall c =>
      let t := List.length (a_tasks s) in
      let s := new_task s in
      let (s, o) :=
        match c with
        | CName m => let (gs, r) := on_name m (a_groups s) in finish t r (with_groups gs s)
        | CCommands m => let (gs, r) := on_commands m (a_groups s) in finish t r (with_groups gs s)
        | CInfo m => match getattr m "groups" with
                     | VList es => info_next t es s
                     | VNone => finish t (Err EType) s                       (* None cannot be iterated *)
                     | _ => finish t (Err EUnmodelled) s
                     end
        | CInterview => interview_start t s
        end in
      Some (s, OCall t c :: o)
  | ESent t r =>
      match nth_error (a_tasks s) t with
      | Some (PName k rest) => Some (match r with Ok _ => commands_next t k rest s | Err x => finish t (Err x) s end)
      | Some (PCommands rest) => Some (match r with Ok _ => info_next t rest s | Err x => finish t (Err x) s end)
      | Some PInterview => Some (interview_end t r s)
      | _ => None
      end
  | EOther => Some (updated s)
  end.
Inductive aexec (s0 : astate) : list aevent -> astate -> list aobs -> Prop :=
| aexec_nil : aexec s0 [] s0 []
| aexec_snoc es s tr e s' o : aexec s0 es s tr -> astep s e = Some (s', o) -> aexec s0 (es ++ [e]) s' (tr ++ o).
Fixpoint arun (s : astate) (es : list aevent) : option (astate * list aobs) :=
  match es with
  | [] => Some (s, [])
  | e :: es' => match astep s e with
                | None => None
                | Some (s', o) => match arun s' es' with None => None | Some (s'', o') => Some (s'', o ++ o') end
                end
  end.
(** a class that has just been created (l.93-102) or loaded *)
Definition astate0 (gs : groupings) (v : Z) (i : bool) (others : supported) (base : pystr) (n ep : Z) (d : disk) : astate :=
  mkAS gs v i others base n ep d [].
