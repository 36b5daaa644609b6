(** node.py Node: construction from a node information frame, message routing, supervision and the storage lock;
    commandclass/CommandClass.py l.104-125 handleMessage. *)
From Coq Require Import String ZArith List Bool.
From Verif Require Import Py Schema Registry Codec Waiter Listen.
Import ListNotations.
Open Scope list_scope.
Open Scope string_scope.
Open Scope list_scope.
Open Scope Z_scope.

(** ** Construction: node.py l.83-108.  The dictionaries map a command class id to whether it was listed after the S0 mark;
    CommandClass.load (CommandClass.py l.207-218) cannot fail. *)
Record classes := mkCls { n_supported : list (Z * bool); n_controlled : list (Z * bool) }.
(** [supp]: before the control mark; [sec]: after the S0 mark *)
Fixpoint nif (l : list Z) (supp sec : bool) (n : classes) : res classes :=
  match l with
  | [] => Ok n
  | c :: l' =>
      let listed :=
        if c =? 239 then nif l' false sec n                                               (* l.94-98 *)
        else nif l' supp sec (if supp then mkCls (dset Z.eqb c sec (n_supported n)) (n_controlled n)
                              else mkCls (n_supported n) (dset Z.eqb c sec (n_controlled n))) in
      if c =? 241 then
        match l' with
        | [] => Err EIndex                                                                 (* l.88: cmdClasses[i + 1] *)
        | c' :: l'' => if c' =? 0 then nif l'' true true n else listed
        end
      else listed
  end.
Definition new_node (l : list Z) : res classes := nif l true false (mkCls [] []).
(** l.295-297 supports *)
Definition supports (n : classes) (c : Z) : bool := dmem Z.eqb c (n_supported n).

(** ** Message handling *)
(** message.py l.14-16 cmdClass *)
Definition msg_class (m : val) : Z := Z.land (Z.shiftr (hid m) 8) 255.
(** NAME of a message is None unless its class is registered: message.py l.12, l.102 *)
Definition has_name (m : val) : bool := match m with VObj (CMsg s) _ => negb (String.eqb (s_NAME s) "") | _ => false end.

(** how one supported command class reacts to the message: its own handler (if it has one for this message) and its listeners *)
Record reacts := mkR { r_handler : option (res bool); r_listeners : list reaction }.
(** who got to see the message *)
Inductive stage := SWaiters | SHandler | SClassListeners | SNodeListeners.

(** CommandClass.py l.104-125 *)
Definition class_handle (m : val) (r : reacts) : list stage * res bool :=
  if has_name m then
    let rest := ([SClassListeners], do bs <- ask (r_listeners r); Ok (existsb (fun b => b) bs)) in
    match r_handler r with
    | None => rest
    | Some (Err e) => ([SHandler], Err e)
    | Some (Ok true) => ([SHandler], Ok true)
    | Some (Ok false) => let (l, x) := rest in (SHandler :: l, x)
    end
  else ([], Ok false).

(** node.py l.161-180 handleMessage (undecorated).  [cls]: reaction of the node's supported command classes;
    [ls]: listeners of the node. *)
Definition handle (m : val) (w : waiter) (cls : list (Z * reacts)) (ls : list reaction) : waiter * list stage * res bool :=
  let (w, r) := message_received m w in
  match r with
  | Err e => (w, [SWaiters], Err e)
  | Ok handled =>
      let '(st, x) := match dget Z.eqb (msg_class m) cls with Some r => class_handle m r | None => ([], Ok false) end in
      match x with
      | Err e => (w, SWaiters :: st, Err e)
      | Ok true => (w, SWaiters :: st, Ok true)
      | Ok false =>
          if handled then (w, SWaiters :: st, Ok true)
          else (w, SWaiters :: st ++ [SNodeListeners], do bs <- ask ls; Ok (existsb (fun b => b) bs))
      end
  end.

(** l.23-52 supervision: [func] is the outcome of handling a message, [send] the outcome of sending; the messages sent *)
Definition sup_report (m : val) (status : Z) : res val :=
  new_msg m_Supervision_Report
    [("moreStatusUpdates", VBool false); ("wakeUpRequest", VBool false); ("sessionID", getattr m "sessionID");
     ("status", VInt status); ("duration", VInt 0)].
Definition is_sup (m : val) : bool := match m with VObj (CMsg s) _ => String.eqb (s_name s) (s_name m_Supervision_Get) | _ => false end.
(** result: the messages [func] was called with, the reports sent, the result *)
Definition supervised (func : val -> res bool) (send : val -> res bool) (m : val) : list val * list val * res bool :=
  if is_sup m then
    let c := getattr m "command" in
    match func c with
    | Err e => ([c], [], Err e)
    | Ok b =>
        match sup_report m (if b then 255 else 0) with
        | Err e => ([c], [], Err e)
        | Ok rep => ([c], [rep], do _ <- send rep; Ok b)
        end
    end
  else ([m], [], func m).

(** ** Storage lock: node.py l.124-131 commandClassUpdated, l.254-279 storageLock *)
Inductive storage := Clean | LockedClean | LockedDirty.
Inductive lock_event := Lock | Unlock | Update.
(** the number of [speak("nodeUpdated")] *)
Definition lock_step (s : storage) (e : lock_event) : storage * nat :=
  match e with
  | Lock => (LockedClean, O)                                       (* l.274 *)
  | Unlock => (Clean, match s with LockedDirty => 1%nat | _ => O end)   (* l.277-279 *)
  | Update => match s with Clean => (Clean, 1%nat) | LockedClean => (LockedDirty, O) | LockedDirty => (LockedDirty, O) end
  end.
(** the notifications after each event *)
Fixpoint lock_run (s : storage) (es : list lock_event) : list nat :=
  match es with [] => [] | e :: es' => let (s', n) := lock_step s e in n :: lock_run s' es' end.
