(** application.py Application: the table of node objects, its updates, and the routing of messages. *)
From Coq Require Import String ZArith List Bool.
From Verif Require Import Py Schema Registry Codec Waiter Conn NodeM.
Import ListNotations.
Open Scope list_scope.
Open Scope string_scope.
Open Scope list_scope.
Open Scope Z_scope.

(** ** Node objects.  Objects live in a heap ([a_objs]) and are referred to by their index, so that "the same object" has a meaning.
    Only what the application sets is kept (l.52-61, l.39-42, node.py l.65-108, l.300-306); the storage is a listener of every
    object.  [o_basic], [o_listening] and the like of an end point are read from its parent (node.py l.308-340). *)
Definition key := (Z * Z)%type.       (* "{}:{}".format(node, endpoint): node.py l.214-217; formatting integers is injective *)
Definition key_eqb (a b : key) : bool := (fst a =? fst b) && (snd a =? snd b).
Record nobj := mkO { o_root : Z; o_ep : Z; o_cls : classes; o_basic : Z; o_generic : Z; o_specific : Z; o_listening : bool; o_parent : option nat }.
Definition o_key (o : nobj) : key := (o_root o, o_ep o).

(** ** What the application asks its adapter and is answered.  The reports are represented by the fields that are read;
    any answer, and any exception, is possible. *)
Inductive query := QNodes | QInfo (n : Z) | QCount (n : Z) | QCap (n ep : Z) | QFailed.
(** what it tells or asks its listeners (l.108, 111, 121, 123, 93, 137, 140, 148-149, 154, 176, 178) *)
Inductive news :=
| WRemoved (k : key) | WRemovedAll (ks : list key) | WAddedAll (os : list nat) | WAdded (o : nat)
| WNodeZero | WNodesZero                       (* nodeRemoved(0), nodesRemoved([0]) *)
| WAddStatus (m : val) | WRemoveStatus (m : val) | WMessage (m : val).
Inductive answer :=
| ANodes (l : list Z)                                                     (* a set or list, in the order of its iteration *)
| AInfo (cls : list Z) (basic generic specific : Z) (listening : bool)
| ACount (n : Z)
| ACap (cls : list Z) (generic specific : Z)
| ATold (bs : list bool)                                                   (* the listeners' answers: "is True" *)
| AHandled (b : bool).                                                     (* truth of what the node object returned *)

Inductive acall :=
| AUpdate                                                                  (* l.98 nodeListUpdated *)
| AStartup                                                                 (* l.168 startup *)
| ALoad (n : Z)                                                            (* l.46 loadNode *)
| AMessage (root : Z) (ep : option Z) (m flags : val)                      (* l.70 messageReceived; an end point that is no integer is None *)
| AUnhandled (m : val).                                                    (* l.130 onMessageReceived *)
Inductive aval := RNone | RBool (b : bool) | RNodes (l : list nat).

(** what to do once loadNode returns *)
Inductive kont := KLoad | KUpdate (rest : list Z) (new : list nat) | KStart (rest : list Z).
(** where a task is suspended *)
Inductive apc :=
| PList                                                                    (* l.100 *)
| PRemoved (rest all : list key) (l : list Z)                              (* l.108 *)
| PRemovedAll (l : list Z)                                                 (* l.111 *)
| PInfo (n : Z) (k : kont)                                                 (* l.52 *)
| PCount (n : Z) (root : nat) (k : kont)                                   (* l.65 *)
| PCap (n : Z) (root : nat) (ep last : Z) (got : list nat) (k : kont)      (* l.38 *)
| PAddedAll (new : list nat)                                               (* l.121 *)
| PAdded (rest : list nat)                                                 (* l.123 *)
| PStartList                                                               (* l.170 *)
| PFailed                                                                  (* l.173 *)
| PStartAll                                                                (* l.176 *)
| PStartEach (rest : list nat) (size : nat)                                (* l.178 *)
| PHandle                                                                  (* l.82 *)
| PChip                                                                    (* l.94 *)
| PStatus                                                                  (* l.137: the answer is True whatever the listeners say *)
| PRemStatus (m : val)                                                     (* l.140 *)
| PZero                                                                    (* l.148 *)
| PZeros                                                                   (* l.149 *)
| POffer                                                                   (* l.154 *)
| PEnd (r : res aval).
Record atask := mkAT { at_call : acall; at_pc : apc }.
Record app := mkA { a_me : Z; a_tab : list (key * nat); a_objs : list nobj; a_tasks : list atask }.
Definition app0 : app := mkA 0 [] [] [].                                  (* l.26-34; adapter.py l.71 *)

Inductive aobs :=
| OCalled (t : nat) (c : acall)
| OQuery (t : nat) (q : query)                 (* the adapter is asked *)
| OAnswer (t : nat) (q : query) (a : answer)   (* its answer *)
| OTell (t : nat) (w : news)                   (* the listeners are called *)
| OHandle (t : nat) (o : nat) (m flags : val)  (* a node object is handed a message *)
| ODel (t : nat) (k : key)                     (* an entry is removed from the table *)
| OPut (t : nat) (k : key) (o : nat)           (* an entry is written *)
| ODone (t : nat) (r : res aval).

(** the next suspension, with what happened until then and the new table and objects *)
Definition tabs := (list (key * nat) * list nobj)%type.
Definition ago := (tabs * list aobs * apc)%type.
Definition stop (t : nat) (r : res aval) (d : tabs) : ago := (d, [ODone t r], PEnd r).
Definition obs_then (os : list aobs) (g : ago) : ago := let '(d, os', p) := g in (d, os ++ os', p).

(** dict iteration with a suspension in every round, l.177-178: python raises if the size of the dictionary changed.  Changes
    that keep the size are not noticed by python; here the iteration goes on over the old entries. *)
Definition start_each (t : nat) (rest : list nat) (size : nat) (d : tabs) : ago :=
  if Nat.eqb (length (fst d)) size then
    match rest with
    | [] => stop t (Ok RNone) d
    | o :: rest' => (d, [OTell t (WAdded o)], PStartEach rest' size)
    end
  else stop t (Err ERuntime) d.

(** l.122-123 *)
Definition announce_each (t : nat) (rest : list nat) (d : tabs) : ago :=
  match rest with
  | [] => stop t (Ok RNone) d
  | o :: rest' => (d, [OTell t (WAdded o)], PAdded rest')
  end.
(** l.120-121 *)
Definition announce (t : nat) (new : list nat) (d : tabs) : ago :=
  match new with [] => announce_each t [] d | _ :: _ => (d, [OTell t (WAddedAll new)], PAddedAll new) end.
(** l.113-118: the nodes not known yet; [me] is the adapter's own id (l.48-50) *)
Fixpoint update_loop (me : Z) (t : nat) (rest : list Z) (new : list nat) (d : tabs) : ago :=
  match rest with
  | [] => announce t new d
  | n :: rest' =>
      if dmem key_eqb (n, 0) (fst d) then update_loop me t rest' new d
      else if n =? me then update_loop me t rest' new d
      else (d, [OQuery t (QInfo n)], PInfo n (KUpdate rest' new))
  end.
(** l.170-173 *)
Fixpoint start_loop (me : Z) (t : nat) (rest : list Z) (d : tabs) : ago :=
  match rest with
  | [] => (d, [OQuery t QFailed], PFailed)
  | n :: rest' => if n =? me then start_loop me t rest' d else (d, [OQuery t (QInfo n)], PInfo n (KStart rest'))
  end.
(** after l.68 *)
Definition loaded (me : Z) (t : nat) (k : kont) (nodes : list nat) (d : tabs) : ago :=
  match k with
  | KLoad => stop t (Ok (RNodes nodes)) d
  | KUpdate rest new => update_loop me t rest (new ++ nodes) d
  | KStart rest => start_loop me t rest d
  end.
(** a new object enters the heap and the table: l.62, l.43 *)
Definition put (t : nat) (o : nobj) (d : tabs) : tabs * aobs := ((dset key_eqb (o_key o) (length (snd d)) (fst d), snd d ++ [o]), OPut t (o_key o) (length (snd d))).
(** l.66-67: [range(ep, last + 1)] *)
Definition caps (me : Z) (t : nat) (n : Z) (root : nat) (ep last : Z) (got : list nat) (k : kont) (d : tabs) : ago :=
  if ep <=? last then (d, [OQuery t (QCap n ep)], PCap n root ep last got k) else loaded me t k got d.
(** l.53-65 *)
Definition with_info (me : Z) (t : nat) (n : Z) (cls : list Z) (basic generic specific : Z) (listening : bool) (k : kont) (d : tabs) : ago :=
  match new_node cls with
  | Err e => stop t (Err e) d
  | Ok c =>
      let root := length (snd d) in
      let (d, o) := put t (mkO n 0 c basic generic specific listening None) d in
      if supports c 96 then (d, [o; OQuery t (QCount n)], PCount n root k) else obs_then [o] (loaded me t k [root] d)
  end.
(** l.39-44 *)
Definition with_cap (me : Z) (t : nat) (n : Z) (root : nat) (ep last : Z) (got : list nat) (cls : list Z) (generic specific : Z) (k : kont) (d : tabs) : ago :=
  match new_node cls with
  | Err e => stop t (Err e) d
  | Ok c =>
      let i := length (snd d) in
      let (d, o) := put t (mkO n ep c 0 generic specific false (Some root)) d in
      obs_then [o] (caps me t n root (ep + 1) last (got ++ [i]) k d)
  end.
(** l.106-111; [del] of a missing key raises KeyError *)
Definition remove (me : Z) (t : nat) (rest all : list key) (l : list Z) (d : tabs) : ago :=
  match rest with
  | k :: rest' =>
      if dmem key_eqb k (fst d) then ((ddel key_eqb k (fst d), snd d), [ODel t k; OTell t (WRemoved k)], PRemoved rest' all l)
      else stop t (Err EKey) d
  | [] => match all with [] => update_loop me t l [] d | _ :: _ => (d, [OTell t (WRemovedAll all)], PRemovedAll l) end
  end.
(** l.100-105 *)
Definition root_of (d : tabs) (e : key * nat) : Z := match nth_error (snd d) (snd e) with Some o => o_root o | None => 0 end.
Definition with_list (me : Z) (t : nat) (l : list Z) (d : tabs) : ago :=
  let gone := map fst (filter (fun e => negb (existsb (Z.eqb (root_of d e)) l)) (fst d)) in
  remove me t gone gone l d.

(** l.70-96 *)
Definition start_message (me : Z) (t : nat) (root : Z) (ep : option Z) (m flags : val) (d : tabs) : ago :=
  match (match ep with Some e => dget key_eqb (root, e) (fst d) | None => None end) with
  | Some o => (d, [OHandle t o m flags], PHandle)
  | None => if root =? me then (d, [OTell t (WMessage m)], PChip) else stop t (Ok (RBool false)) d
  end.
Definition int_is (v : val) (z : Z) : bool := match v with VI _ _ x => x =? z | _ => false end.
(** l.130-158 *)
Definition start_unhandled (t : nat) (m : val) (d : tabs) : ago :=
  if is_msg m_Zip_ZipPacket m then
    let c := getattr m "command" in
    if is_msg m_NetworkManagementInclusion_NodeAddStatus c then (d, [OTell t (WAddStatus c)], PStatus)
    else if is_msg m_NetworkManagementInclusion_NodeRemoveStatus c then (d, [OTell t (WRemoveStatus c)], PRemStatus c)
    else match c with VNone => stop t (Ok (RBool false)) d | _ => (d, [OTell t (WMessage c)], POffer) end
  else stop t (Ok (RBool false)) d.

Definition astart (me : Z) (t : nat) (c : acall) (d : tabs) : ago :=
  match c with
  | AUpdate => (d, [OQuery t QNodes], PList)
  | AStartup => (d, [OQuery t QNodes], PStartList)
  | ALoad n => if n =? me then stop t (Ok (RNodes [])) d else (d, [OQuery t (QInfo n)], PInfo n KLoad)
  | AMessage root ep m flags => start_message me t root ep m flags d
  | AUnhandled m => start_unhandled t m d
  end.

(** the task is answered; no exception is caught anywhere in application.py *)
Definition aresume (me : Z) (t : nat) (p : apc) (a : answer) (d : tabs) : option ago :=
  match p, a with
  | PList, ANodes l => Some (obs_then [OAnswer t QNodes a] (with_list me t l d))
  | PRemoved rest all l, ATold _ => Some (remove me t rest all l d)
  | PRemovedAll l, ATold _ => Some (update_loop me t l [] d)
  | PInfo n k, AInfo cls basic generic specific listening => Some (obs_then [OAnswer t (QInfo n) a] (with_info me t n cls basic generic specific listening k d))
  | PCount n root k, ACount c => Some (obs_then [OAnswer t (QCount n) a] (caps me t n root 1 c [root] k d))
  | PCap n root ep last got k, ACap cls generic specific => Some (obs_then [OAnswer t (QCap n ep) a] (with_cap me t n root ep last got cls generic specific k d))
  | PAddedAll new, ATold _ => Some (announce_each t new d)
  | PAdded rest, ATold _ => Some (announce_each t rest d)
  | PStartList, ANodes l => Some (obs_then [OAnswer t QNodes a] (start_loop me t l d))
  | PFailed, ANodes l => Some (obs_then [OAnswer t QFailed a] (d, [OTell t (WAddedAll (map snd (fst d)))], PStartAll))
  | PStartAll, ATold _ => Some (start_each t (map snd (fst d)) (length (fst d)) d)
  | PStartEach rest size, ATold _ => Some (start_each t rest size d)
  | PHandle, AHandled b => Some (stop t (Ok (RBool b)) d)
  | PChip, ATold _ => Some (stop t (Ok (RBool true)) d)
  | PStatus, ATold _ => Some (stop t (Ok (RBool true)) d)
  | PRemStatus m, ATold _ =>
      if int_is (getattr m "status") 6 then
        if int_is (getattr m "nodeID") 0 then Some (d, [OTell t WNodeZero], PZero) else Some (stop t (Ok (RBool true)) d)
      else Some (stop t (Ok (RBool true)) d)
  | PZero, ATold _ => Some (d, [OTell t WNodesZero], PZeros)
  | PZeros, ATold _ => Some (stop t (Ok (RBool true)) d)
  | POffer, ATold bs => Some (stop t (Ok (RBool (existsb (fun b => b) bs))) d)
  | _, _ => None
  end.

(** ** Steps: a call arrives, a suspended task is answered or its await raises, the adapter learns its id *)
Inductive aevent := ECall (c : acall) | EAnswer (t : nat) (r : res answer) | EMe (z : Z).
Definition aset (t : nat) (p : apc) (ts : list atask) : list atask :=
  match nth_error ts t with Some x => upd t (mkAT (at_call x) p) ts | None => ts end.
Definition astep (s : app) (e : aevent) : option (app * list aobs) :=
  let d := (a_tab s, a_objs s) in
  match e with
  | ECall c =>
      let t := length (a_tasks s) in
      let '(d', os, p) := astart (a_me s) t c d in
      Some (mkA (a_me s) (fst d') (snd d') (a_tasks s ++ [mkAT c p]), OCalled t c :: os)
  | EAnswer t r =>
      match nth_error (a_tasks s) t with
      | None => None
      | Some x =>
          match (match at_pc x, r with PEnd _, _ => None | p, Ok a => aresume (a_me s) t p a d | _, Err e => Some (stop t (Err e) d) end) with
          | Some (d', os, p') => Some (mkA (a_me s) (fst d') (snd d') (aset t p' (a_tasks s)), os)
          | None => None
          end
      end
  | EMe z => Some (mkA z (a_tab s) (a_objs s) (a_tasks s), [])
  end.

Inductive aexec (s0 : app) : list aevent -> app -> list aobs -> Prop :=
| AX_nil : aexec s0 [] s0 []
| AX_snoc es s tr e s' os : aexec s0 es s tr -> astep s e = Some (s', os) -> aexec s0 (es ++ [e]) s' (tr ++ os).
Fixpoint arun (s : app) (es : list aevent) : option (app * list aobs) :=
  match es with
  | [] => Some (s, [])
  | e :: es' => match astep s e with
                | Some (s', os) => match arun s' es' with Some (s'', tr) => Some (s'', os ++ tr) | None => None end
                | None => None
                end
  end.
