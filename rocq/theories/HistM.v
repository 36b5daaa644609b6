(** The settings of nodes over time: objects are created, changed, saved, loaded and given up while the files stay
    (persistantstorage.py l.30-50, application.py l.36-68, l.98-123, l.168-178). *)
From Coq Require Import String ZArith List Bool.
From Verif Require Import Py Waiter StorageM.
Import ListNotations.
Open Scope list_scope.
Open Scope string_scope.
Open Scope list_scope.
Open Scope Z_scope.

(** a node object: its id (node.py l.214-217), its command classes, and whether the process it lives in still runs *)
Record hobj := mkH { h_node : Z; h_end : Z; h_sup : supported; h_live : bool }.
Record hist := mkHist { h_disk : disk; h_objs : list hobj }.
Definition hist0 : hist := mkHist [] [].
Inductive hevent :=
| HNew (n e : Z) (fresh : supported)           (* application.py l.53-62, l.39-43: the storage listens to the object from here on *)
| HChange (i : nat) (s : supported)            (* reports and interviews change the classes of object [i] in any way *)
| HSave (i : nat)                              (* nodeUpdated, persistantstorage.py l.45-50 *)
| HLoad (i : nat)                              (* nodeAdded, l.32-43; asked for by application.py l.123 and l.178 *)
| HGone (i : nat)                              (* application.py l.107-108: nodeRemoved; the storage has no such method.  The object may still be in use. *)
| HStop                                        (* the process ends *)
| HCrash (i : nat) (parts k : nat).            (* the process ends after [k] disk operations of a save, see StorageM.saving *)
Inductive hobs :=
| WNew (i : nat) (n e : Z) (fresh : supported)
| WSaved (i : nat) (n e : Z) (s : supported)
| WLoaded (i : nat) (n e : Z) (before : supported) (r : supported * option exn)
| WGone (i : nat) (n e : Z)
| WStop
| WCut (i : nat) (n e : Z).
(** node objects are given a new content; an exception leaves what was set until then *)
Definition put_sup (i : nat) (o : hobj) (s : supported) (h : hist) : hist := mkHist (h_disk h) (upd i (mkH (h_node o) (h_end o) s (h_live o)) (h_objs h)).
Definition dead (o : hobj) : hobj := mkH (h_node o) (h_end o) (h_sup o) false.
Definition alive (i : nat) (h : hist) : option hobj := match nth_error (h_objs h) i with Some o => if h_live o then Some o else None | None => None end.
Definition hstep (cut : py -> nat -> res (option ytree)) (base : pystr) (h : hist) (v : hevent) : option (hist * list hobs) :=
  match v with
  | HNew n e fresh => Some (mkHist (h_disk h) (h_objs h ++ [mkH n e fresh true]), [WNew (length (h_objs h)) n e fresh])
  | HChange i s => match alive i h with Some o => Some (put_sup i o s h, []) | None => None end
  | HSave i => match alive i h with
               | Some o => Some (mkHist (node_updated base (h_node o) (h_end o) (h_sup o) (h_disk h)) (h_objs h), [WSaved i (h_node o) (h_end o) (h_sup o)])
               | None => None
               end
  | HLoad i => match alive i h with
               | Some o => let r := node_added cut base (h_node o) (h_end o) (h_disk h) (h_sup o) in Some (put_sup i o (fst r) h, [WLoaded i (h_node o) (h_end o) (h_sup o) r])
               | None => None
               end
  | HGone i => match alive i h with Some o => Some (h, [WGone i (h_node o) (h_end o)]) | None => None end
  | HStop => Some (mkHist (h_disk h) (map dead (h_objs h)), [WStop])
  | HCrash i parts k => match alive i h with
                        | Some o => Some (mkHist (save_cut base (h_node o) (h_end o) (h_sup o) parts k (h_disk h)) (map dead (h_objs h)), [WCut i (h_node o) (h_end o); WStop])
                        | None => None
                        end
  end.
Inductive hexec (cut : py -> nat -> res (option ytree)) (base : pystr) : list hevent -> hist -> list hobs -> Prop :=
| HX_nil : hexec cut base [] hist0 []
| HX_snoc vs h tr v h' os : hexec cut base vs h tr -> hstep cut base h v = Some (h', os) -> hexec cut base (vs ++ [v]) h' (tr ++ os).
Fixpoint hrun (cut : py -> nat -> res (option ytree)) (base : pystr) (h : hist) (vs : list hevent) : option (hist * list hobs) :=
  match vs with
  | [] => Some (h, [])
  | v :: vs' => match hstep cut base h v with
                | Some (h1, os) => match hrun cut base h1 vs' with Some (h2, tr) => Some (h2, os ++ tr) | None => None end
                | None => None
                end
  end.
