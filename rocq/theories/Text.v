(** Text forms of values and computed message attributes. *)
From Coq Require Import String ZArith List Bool.
From Verif Require Import Py BitStream Schema Registry Codec.
Import ListNotations.
Open Scope list_scope.
Open Scope Z_scope.

(** Association.py l.37-44 Nodes.__getstate__ *)
Definition node_text (p : Z * option Z) : pystr :=
  match snd p with
  | None => str_of_Z (fst p)
  | Some e => str_of_Z (fst p) ++ [58] ++ str_of_Z e
  end.
Definition nodes_getstate (l : list (Z * option Z)) : val := VList (map (fun p => VStr (node_text p)) l).

(** Meter.py l.93-101 Report.scale.  ElectricMeterScale (l.39-49) has the members 0..7. *)
Definition meter_scale (m : val) : res Z :=
  match getattr m "meterValue" with
  | VFloatT _ _ _ scale =>
      let scale := if truthy (getattr m "scale2") then Z.lor scale 4 else scale in
      match to_int (getattr m "meterType") with
      | Ok 1 => if (0 <=? scale) && (scale <? 8) then Ok scale else Err EValue
      | _ => Ok scale
      end
  | _ => Err EAttribute       (* None has no attribute 'scale' *)
  end.
