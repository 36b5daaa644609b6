(** Vocabulary for interviews. *)
From Coq Require Import String ZArith List Bool.
From Verif Require Import Py Schema Codec Conn NodeReq InterviewM.
Import ListNotations.
Open Scope list_scope.
Open Scope string_scope.
Open Scope list_scope.
Open Scope Z_scope.

Definition itrace := list (Z * iobs).
Definition byte (b : Z) : Prop := 0 <= b < 256.
(** what the node sent arrived as bytes *)
Definition from_wire (tr : itrace) : Prop := forall n m r, In (n, ONet (NRecv m r)) tr -> exists bs, Forall byte bs /\ decode bs = Ok m.

(** the command [q] is [w] on the wire *)
Fixpoint same_bytes (a b : list Z) : bool :=
  match a, b with [], [] => true | x :: a', y :: b' => (x =? y) && same_bytes a' b' | _, _ => false end.
Definition says (q : val) (w : list Z) : bool := match compose q with Ok l => same_bytes l w | Err _ => false end.
(** the messages returned to requests whose command is [w], in order; [open] are such requests made before *)
Fixpoint answers_in (w : list Z) (open : list nat) (tr : itrace) : list val :=
  match tr with
  | [] => []
  | (_, OAsk _ u q) :: tr' => answers_in w (if says q w then u :: open else open) tr'
  | (_, ONet (NRet u (RMsg m))) :: tr' => if existsb (Nat.eqb u) open then m :: answers_in w open tr' else answers_in w open tr'
  | _ :: tr' => answers_in w open tr'
  end.
Definition answers (w : list Z) (tr : itrace) : list val := answers_in w [] tr.
(** the values these messages have in field [f] *)
Definition values (f : string) (ms : list val) : list Z := flat_map (fun m => match getattr m f with VI _ _ z => [z] | _ => [] end) ms.

(** what the library asks for: the version of a class, and the own questions of three classes with their fields *)
Definition version_question (id : Z) : list Z := [134; 19; id].
Inductive copies : Z -> list Z -> string -> nat -> Prop :=
| CP_version f : In f ["zwaveLibraryType"; "zwaveProtocolVersion"; "zwaveProtocolSubVersion"; "applicationVersion"; "applicationSubVersion"] -> copies 134 [134; 17] f 1
| CP_plus f : In f ["zwavePlusVersion"; "roleType"; "nodeType"] -> copies 94 [94; 1] f 1
| CP_icon f : In f ["installerIconType"; "userIconType"] -> copies 94 [94; 1] f 2
| CP_maker f : In f ["manufacturerID"; "productTypeID"; "productID"] -> copies 114 [114; 4] f 2.

(** [m] was returned to a request [w], in this order: asked, acknowledged, received, returned *)
Definition fresh_answer (w : list Z) (h : Z) (m : val) (tr : itrace) : Prop :=
  exists t u q n1 n2 n3 n4 a b c d e, says q w = true /\ hid m = h /\
    tr = a ++ (n1, OAsk t u q) :: b ++ (n2, ONet (NSent u (Ok true))) :: c ++ (n3, ONet (NRecv m (Ok true))) :: d ++ (n4, ONet (NRet u (RMsg m))) :: e.

(** the classes whose interviews task [t] has started *)
Definition visits (t : nat) (tr : itrace) : list Z := flat_map (fun x => match x with (_, OVisit t' id) => if Nat.eqb t' t then [id] else [] | _ => [] end) tr.

(** the fields read from a report of type [h], and reports without all of them *)
Definition due (h : Z) : list string :=
  if h =? 134 * 256 + 20 then ["commandClassVersion"]
  else if h =? 134 * 256 + 18 then ["zwaveLibraryType"; "zwaveProtocolVersion"; "zwaveProtocolSubVersion"; "applicationVersion"; "applicationSubVersion"]
  else if h =? 94 * 256 + 2 then ["zwavePlusVersion"; "roleType"; "nodeType"; "installerIconType"; "userIconType"]
  else if h =? 114 * 256 + 5 then ["manufacturerID"; "productTypeID"; "productID"]
  else [].
Definition incomplete (m : val) : Prop := exists f, In f (due (hid m)) /\ getattr m f = VNone.
(** why task [t] failed with [e]: one of its requests did, the interview left to the environment did, or a report was cut short *)
Definition cause (t : nat) (e : exn) (es : list ievent) (tr : itrace) : Prop :=
  (exists n n' u q, In (n, OAsk t u q) tr /\ In (n', ONet (NRet u (RExc e))) tr) \/
  In (IOwn t (Err e)) es \/
  (e = EType /\ exists n n' u q m, In (n, OAsk t u q) tr /\ In (n', ONet (NRet u (RMsg m))) tr /\ incomplete m).
(** the attributes the classes start with are numbers, if present *)
Definition sound (cls : Z -> kcls) : Prop := forall id w f sz, copies id w f sz -> aget f (k_attrs (cls id)) = None \/ exists z, aget f (k_attrs (cls id)) = Some (VI false sz z).
(** [q] asks for the version of class [id] *)
Definition asks_version (q : val) (id : Z) : Prop := says q (version_question id) = true.
(** version questions do not overlap: until one is over no other is asked *)
Definition one_at_a_time (tr : itrace) : Prop := forall a n t u q id b n' r c, tr = a ++ (n, OAsk t u q) :: b ++ (n', ONet (NRet u r)) :: c -> asks_version q id ->
  forall n2 t2 u2 q2 id2, In (n2, OAsk t2 u2 q2) b -> ~ asks_version q2 id2.
(** the version question asked last *)
Definition last_question (tr : itrace) (id : Z) : Prop := exists a n t u q b, tr = a ++ (n, OAsk t u q) :: b /\ asks_version q id /\ forall n2 t2 u2 q2 id2, In (n2, OAsk t2 u2 q2) b -> ~ asks_version q2 id2.
(** the node reports versions only for the class asked about last *)
Definition prompt_node (tr : itrace) : Prop := forall a n m r b, tr = a ++ (n, ONet (NRecv m r)) :: b -> hid m = 134 * 256 + 20 ->
  exists id, last_question a id /\ getattr m "requestedCommandClass" = VI false 1 id.

(** ** results *)
(** what the own interview of a class consists of: one question, something not described here, or nothing *)
Inductive own := Asks (w : list Z) | Itself | Nothing.
Definition own_of (id : Z) : own :=
  if id =? 134 then Asks [134; 17] else if id =? 94 then Asks [94; 1] else if id =? 114 then Asks [114; 4]
  else if existsb (Z.eqb id) [133; 89; 49] then Itself else Nothing.
(** with [o] task [t] starts the own interview of class [id] *)
Definition starts (t : nat) (id : Z) (o : iobs) : Prop :=
  match o, own_of id with
  | OAsk t' _ q, Asks w => t' = t /\ says q w = true
  | OOwn t' id', Itself => t' = t /\ id' = id
  | _, _ => False
  end.
(** what a class makes of the outcome of its question *)
Definition makes (x : result) (r : res (option bool)) : Prop :=
  match x, r with
  | RMsg m, Ok None => ~ incomplete m
  | RMsg m, Err e => e = EType /\ incomplete m
  | RExc e', Err e => e' = e
  | _, _ => False
  end.
(** the interview left to the environment that task [t] has started last *)
Definition own_last (t : nat) (tr : itrace) : option Z :=
  last (flat_map (fun x => match x with (_, OOwn t' id) => if Nat.eqb t' t then [Some id] else [] | _ => [] end) tr) None.
(** in a step with event [e] and observations [os] after [tr] the own interview of class [id] in task [t] is over, with [r] *)
Definition over (t : nat) (id : Z) (r : res (option bool)) (e : ievent) (tr : itrace) (os : list iobs) : Prop :=
  match own_of id with
  | Asks w => exists n u q x, In (n, OAsk t u q) tr /\ says q w = true /\ In (ONet (NRet u x)) os /\ makes x r
  | Itself => e = IOwn t r /\ own_last t tr = Some id
  | Nothing => False
  end.
(** it was over, with [r], at some time *)
Definition ended (t : nat) (id : Z) (r : res (option bool)) (es : list ievent) (tr : itrace) : Prop :=
  match own_of id with
  | Asks w => exists n n' u q x, In (n, OAsk t u q) tr /\ says q w = true /\ In (n', ONet (NRet u x)) tr /\ makes x r
  | Itself => In (IOwn t r) es
  | Nothing => r = Ok None
  end.
(** the version question of task [t] about class [id] was over with [x] *)
Definition version_said (t : nat) (id : Z) (x : result) (tr : itrace) : Prop :=
  exists n n' u q, In (n, OAsk t u q) tr /\ q = VObj (CMsg Registry.m_Version_VersionCommandClassGet) [("requestedCommandClass", VI false 1 id)] /\ In (n', ONet (NRet u x)) tr.
(** task [t] has not learnt a version of class [id] *)
Definition no_version (t : nat) (id : Z) (tr : itrace) : Prop :=
  id = 0 \/ version_said t id (RExc ETimeout) tr \/ exists m, version_said t id (RMsg m) tr /\ getattr m "commandClassVersion" = VI false 1 0.
