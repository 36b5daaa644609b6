(** mailbox.py: QueueItem and MailboxService as an event driven machine.  One event is the code between two awaits.
    [adapter.sendToNode] is the environment: it is observed and answered by a later event with any result.
    Time in milliseconds.  Cancelling a heartbeat task takes effect at once. *)
From Coq Require Import String ZArith List Bool.
From Verif Require Import Py Schema Registry Codec Waiter.
Import ListNotations.
Open Scope list_scope.
Open Scope string_scope.
Open Scope list_scope.
Open Scope Z_scope.

(** ** l.28-37 checksum: crcmod's "crc-aug-ccitt", polynomial 0x11021, initial value 0x1D0F, not reflected, no final xor *)
Definition crc_bit (c : Z) : Z := if Z.testbit c 15 then Z.lxor (Z.land (Z.shiftl c 1) 65535) 4129 else Z.land (Z.shiftl c 1) 65535.
Fixpoint crc_bits (n : nat) (c : Z) : Z := match n with O => c | S n' => crc_bits n' (crc_bit c) end.
Definition crc_byte (c b : Z) : Z := crc_bits 8 (Z.lxor c (Z.shiftl b 8)).
Definition checksum (bs : list Z) : Z := fold_left crc_byte bs 7439.

(** ** State *)
(** l.21-26: an entry; [it_beat] is its heartbeat task *)
Record item := mkItem { it_node : Z; it_data : list Z; it_beat : nat }.
Inductive bpc := BSleep (due : Z) | BSending | BOver.
(** l.53-69: [bt_i] is the loop counter *)
Record beat := mkBeat { bt_node : Z; bt_handle : Z; bt_data : list Z; bt_i : Z; bt_pc : bpc }.
(** handlers: waiting for the end of a delivery, of the answer to an empty queue, of a waiting notice *)
Inductive mpc := MPop (it : item) | MEmpty | MPush (node h : Z) (data : list Z) | MDone (r : res bool).
Record mbox := mkM { m_now : Z; m_last : option Z; m_queue : list (Z * list item); m_tasks : list mpc; m_beats : list beat }.
Definition mbox0 : mbox := mkM 0 None [] [] [].                              (* l.75-79 *)
Definition queue (h : Z) (s : mbox) : list item := match dget Z.eqb h (m_queue s) with Some q => q | None => [] end.
Definition set_queue (h : Z) (q : list item) (s : mbox) : mbox := mkM (m_now s) (m_last s) (dset Z.eqb h q (m_queue s)) (m_tasks s) (m_beats s).
Definition set_mtask (t : nat) (p : mpc) (s : mbox) : mbox := mkM (m_now s) (m_last s) (m_queue s) (upd t p (m_tasks s)) (m_beats s).
Definition add_mtask (p : mpc) (s : mbox) : mbox := mkM (m_now s) (m_last s) (m_queue s) (m_tasks s ++ [p]) (m_beats s).
Definition set_beat (b : nat) (x : beat) (s : mbox) : mbox := mkM (m_now s) (m_last s) (m_queue s) (m_tasks s) (upd b x (m_beats s)).
Definition add_beat (x : beat) (s : mbox) : mbox := mkM (m_now s) (m_last s) (m_queue s) (m_tasks s) (m_beats s ++ [x]).

(** ** Observations *)
Inductive sender := ByTask (t : nat) | ByBeat (b : nat).
Inductive mobs :=
| MIn (node : Z) (m : val)                      (* a message is handled *)
| MSend (w : sender) (node : Z) (m : val)       (* sendToNode is called *)
| MStored (t : nat) (b : nat)                   (* the push handled by [t] stored its message; heartbeat task [b] *)
| MRet (t : nat) (r : res bool).                (* a handler ends *)
Inductive mevent :=
| EvTick (dt : Z) | EvMessage (node : Z) (m : val) | EvSent (t : nat) (r : res bool) | EvBeat (b : nat) | EvBeatSent (b : nat) (r : res bool).

(** ** Messages *)
(** Mailbox.Queue(...); operations: 0 push, 1 pop, 2 waiting, 3 ping, 4 ack *)
Definition queue_msg (last : bool) (op : Z) (h : val) (entry : option (list Z)) : res val :=
  new_msg m_Mailbox_Queue ([("last", VBool last); ("operation", VInt op); ("queueHandle", h)] ++ match entry with Some d => [("mailboxEntry", VBytes d)] | None => [] end).
(** l.40-41: an attribute that is a byte string *)
Definition bytes_attr (v : val) : list Z := match v with VBytes d | VPBytes d => d | _ => [] end.
Definition int_val (v : val) : option Z := match to_int v with Ok z => Some z | Err _ => None end.
Definition is_type (sch : schema) (m : val) : bool := match m with VObj (CMsg c) _ => String.eqb (s_name c) (s_name sch) | _ => false end.

(** ** Handlers *)
(** l.90-114 __popQueue__, up to the await *)
Definition pop_last (q : list item) : option (item * list item) := match rev q with [] => None | x :: r => Some (x, rev r) end.
Definition pop_queue (t : nat) (node : Z) (h : option Z) (s : mbox) : mbox * list mobs :=
  match h with
  | None =>      (* uint8_t(None) *)
      (set_mtask t (MDone (Err EType)) s, [MRet t (Err EType)])
  | Some h =>
      match pop_last (queue h s) with
      | None =>
          match queue_msg true 1 (VInt h) None with
          | Ok m => (set_mtask t MEmpty s, [MSend (ByTask t) node m])
          | Err e => (set_mtask t (MDone (Err e)) s, [MRet t (Err e)])
          end
      | Some (it, rest) =>
          let s := set_queue h rest s in
          match queue_msg (match rest with [] => true | _ => false end) 1 (VInt h) (Some (it_data it)) with
          | Ok m => (set_mtask t (MPop it) s, [MSend (ByTask t) node m])
          | Err e => (set_mtask t (MDone (Err e)) s, [MRet t (Err e)])
          end
      end
  end.
(** l.116-131 __pushQueue__, up to the await *)
Definition push_queue (t : nat) (node : Z) (h : option Z) (data : list Z) (s : mbox) : mbox * list mobs :=
  match h with
  | None => (set_mtask t (MDone (Err EType)) s, [MRet t (Err EType)])
  | Some h =>
      let q := queue h s in
      let s := set_queue h q s in                (* l.119 setdefault *)
      if existsb (fun it => checksum (it_data it) =? checksum data) q then (set_mtask t (MDone (Ok false)) s, [MRet t (Ok false)])
      else match queue_msg false 2 (VInt h) (Some data) with
           | Ok m => (set_mtask t (MPush node h data) s, [MSend (ByTask t) node m])
           | Err e => (set_mtask t (MDone (Err e)) s, [MRet t (Err e)])
           end
  end.
(** l.137-163 messageReceived; anything else is not handled *)
Definition on_message (t : nat) (node : Z) (m : val) (s : mbox) : mbox * list mobs :=
  let h := int_val (getattr m "queueHandle") in
  if is_type m_Mailbox_WakeupNotification m then
    pop_queue t node h (mkM (m_now s) h (m_queue s) (m_tasks s) (m_beats s))
  else if is_type m_Mailbox_Queue m then
    match int_val (getattr m "operation") with
    | Some 4 => pop_queue t node (match h with Some 0 | None => m_last s | Some x => Some x end) s    (* l.155: or *)
    | Some 0 => push_queue t node h (bytes_attr (getattr m "mailboxEntry")) s
    | _ => (set_mtask t (MDone (Ok false)) s, [MRet t (Ok false)])
    end
  else (set_mtask t (MDone (Ok false)) s, [MRet t (Ok false)]).
(** l.48-51 stop *)
Definition stop_beat (b : nat) (s : mbox) : mbox :=
  match nth_error (m_beats s) b with Some x => set_beat b (mkBeat (bt_node x) (bt_handle x) (bt_data x) (bt_i x) BOver) s | None => s end.
(** the rest of a handler when sendToNode has ended with [r] *)
Definition sent (t : nat) (r : res bool) (s : mbox) : option (mbox * list mobs) :=
  match nth_error (m_tasks s) t with
  | Some MEmpty => Some (set_mtask t (MDone r) s, [MRet t r])
  | Some (MPop it) =>                                            (* l.111-114 *)
      match r with
      | Err e => Some (set_mtask t (MDone (Err e)) s, [MRet t (Err e)])
      | Ok b => Some (set_mtask t (MDone (Ok true)) (if b then stop_beat (it_beat it) s else s), [MRet t (Ok true)])
      end
  | Some (MPush node h data) =>                                  (* l.132-135 *)
      match r with
      | Ok true =>
          let b := length (m_beats s) in
          let s := add_beat (mkBeat node h data 1 (BSleep (m_now s + 60000))) s in
          Some (set_mtask t (MDone (Ok true)) (set_queue h (queue h s ++ [mkItem node data b]) s), [MStored t b; MRet t (Ok true)])
      | r => Some (set_mtask t (MDone r) s, [MRet t r])
      end
  | _ => None
  end.

Definition mstep (s : mbox) (e : mevent) : option (mbox * list mobs) :=
  match e with
  | EvTick dt => if 0 <=? dt then Some (mkM (m_now s + dt) (m_last s) (m_queue s) (m_tasks s) (m_beats s), []) else None
  | EvMessage node m => let (s', o) := on_message (length (m_tasks s)) node m (add_mtask (MDone (Err EUnmodelled)) s) in Some (s', MIn node m :: o)
  | EvSent t r => sent t r s
  | EvBeat b =>                                                  (* l.56-69 *)
      match nth_error (m_beats s) b with
      | Some (mkBeat node h data i (BSleep due)) =>
          if due <=? m_now s then
            match queue_msg false (if i mod 10 =? 0 then 3 else 2) (VInt h) (Some data) with
            | Ok m => Some (set_beat b (mkBeat node h data i BSending) s, [MSend (ByBeat b) node m])
            | Err _ => Some (set_beat b (mkBeat node h data i BOver) s, [])
            end
          else None
      | _ => None
      end
  | EvBeatSent b r =>
      match nth_error (m_beats s) b with
      | Some (mkBeat node h data i BSending) =>
          Some (set_beat b (mkBeat node h data (i + 1) (match r with Ok _ => BSleep (m_now s + 60000) | Err _ => BOver end)) s, [])
      | _ => None
      end
  end.

(** ** Executions *)
Definition mstamp (n : Z) (os : list mobs) : list (Z * mobs) := map (pair n) os.
Inductive mexec (s0 : mbox) : list mevent -> mbox -> list (Z * mobs) -> Prop :=
| MX_nil : mexec s0 [] s0 []
| MX_snoc es s tr e s' os : mexec s0 es s tr -> mstep s e = Some (s', os) -> mexec s0 (es ++ [e]) s' (tr ++ mstamp (m_now s) os).
(** executable form, for examples *)
Fixpoint mrun (s : mbox) (es : list mevent) : option (mbox * list (Z * mobs)) :=
  match es with
  | [] => Some (s, [])
  | e :: es' => match mstep s e with
                | Some (s', os) => match mrun s' es' with Some (s'', tr) => Some (s'', mstamp (m_now s) os ++ tr) | None => None end
                | None => None
                end
  end.
