(** A device with configuration parameters, a session of reads and writes with it, and what the session should give. *)
From Coq Require Import String ZArith List Bool.
From Verif Require Import Py Schema Registry Codec CmdClass ConfigM.
Import ListNotations.
Open Scope Z_scope.

(** the device: the bytes it holds for each parameter.  It stores what SET frames say and answers GET frames *)
Definition memory := Z -> option (list Z).
Definition device (frame : list Z) (m : memory) : memory * option (list Z) :=
  match frame with
  | 112 :: 4 :: k :: flags :: bs =>
      if (flags <? 128) && (Z.of_nat (length bs) =? flags) then ((fun i => if i =? k then Some bs else m i), None) else (m, None)
  | [112; 5; k] => (m, option_map (fun bs => 112 :: 6 :: k :: Z.of_nat (length bs) :: bs) (m k))
  | _ => (m, None)
  end.
(** one call of the user, run by the code against the device; no answer means a time out.  The report that answers a request is
    also handled by the command class (node.py l.161-171) *)
Inductive cop := OpSet (k sz v : Z) | OpGet (k : Z) (cached : bool).
Inductive cres := RSet (r : res bool) | RGet (r : res val).
Definition play (o : cop) (st : parameters * memory) : (parameters * memory) * cres :=
  let (ps, m) := st in
  match o with
  | OpSet k sz v =>
      match (do q <- cfg_set k sz v; compose q) with
      | Err e => (st, RSet (Err e))
      | Ok bs => ((ps, fst (device bs m)), RSet (Ok true))
      end
  | OpGet k c =>
      let ask q := do bs <- compose q; match snd (device bs m) with Some rep => decode rep | None => Err ETimeout end in
      let (qs, r) := cfg_get k c ask ps in
      let ps' := match qs with
                 | q :: _ => match ask q with Ok rep => fst (cfg_report rep ps) | Err _ => ps end
                 | [] => ps
                 end in
      ((ps', m), RGet r)
  end.
Fixpoint session (os : list cop) (st : parameters * memory) : list cres :=
  match os with
  | [] => []
  | o :: os' => let (st', r) := play o st in r :: session os' st'
  end.

(** what should happen, with numbers only: [dev] are the values in the device, [seen] the values read so far *)
Definition put (f : Z -> option Z) (k v : Z) : Z -> option Z := fun i => if i =? k then Some v else f i.
Fixpoint expected (fresh : bool) (os : list cop) (dev seen : Z -> option Z) : list cres :=
  match os with
  | [] => []
  | OpSet k sz v :: os' =>
      if (0 <=? v) && (v <? 256 ^ sz) then RSet (Ok true) :: expected fresh os' (put dev k v) seen
      else RSet (Err EOverflow) :: expected fresh os' dev seen
  | OpGet k c :: os' =>
      match (if c && negb fresh then seen k else None), dev k with
      | Some v, _ => RGet (Ok (VInt v)) :: expected fresh os' dev seen
      | None, Some v => RGet (Ok (VInt v)) :: expected fresh os' dev (put seen k v)
      | None, None => RGet (Err ETimeout) :: expected fresh os' dev seen
      end
  end.
Definition sane (o : cop) : Prop := match o with OpSet k sz _ => 0 <= k < 256 /\ (sz = 1 \/ sz = 2 \/ sz = 4) | OpGet k _ => 0 <= k < 256 end.
(** a device's memory: one to seven bytes per parameter, read as a number, most significant byte first *)
Definition memory_ok (m : memory) : Prop := forall k bs, m k = Some bs -> bytes_ok bs /\ (1 <= length bs <= 7)%nat.
Definition value_of (bs : list Z) : Z := fold_left (fun a b => 256 * a + b) bs 0.
