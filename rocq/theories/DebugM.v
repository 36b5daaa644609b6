(** Descriptions of objects for the log: util.py l.38-53 and CommandClass.py l.29-42 debugString, message.py l.64-70 and types.py __repr__.
    They are computed for every message a node or the application does not handle (node.py l.179, application.py l.157) and for every negative
    acknowledgement (zipconnection.py l.96), whether or not they are logged.
    What python's own types print is a parameter where it is not a matter of digits: text ([str]), floats, IP addresses, IntFlag members, object addresses
    (object.__repr__) and the order of a set. *)
From Coq Require Import String Ascii ZArith List Bool.
From Verif Require Import Py Schema Registry Codec DebugTab.
Import ListNotations.
Open Scope list_scope.
Open Scope string_scope.
Open Scope list_scope.
Open Scope Z_scope.

(** a literal *)
Fixpoint txt (s : string) : pystr :=
  match s with EmptyString => [] | String a s' => Z.of_nat (nat_of_ascii a) :: txt s' end.

(** [format(z, "0<w>X")], [format(z, "0<w>b")]: digits to base [b], padded with zeros to width [w] *)
Definition digit (d : Z) : Z := if d <? 10 then 48 + d else 55 + d.
Fixpoint digits (b : Z) (fuel : nat) (n : Z) (acc : pystr) : pystr :=
  match fuel with
  | O => acc
  | S f => if n <? b then digit n :: acc else digits b f (n / b) (digit (n mod b) :: acc)
  end.
Definition udigits (b n : Z) : pystr := digits b (dec_fuel n) n [].
Definition format (b : Z) (w : nat) (z : Z) : pystr :=
  let sign := if z <? 0 then [45] else [] in
  let ds := udigits b (Z.abs z) in
  sign ++ repeat 48 (w - (length sign + length ds)) ++ ds.

(** bytes.__repr__ *)
Definition byte_text (quote b : Z) : pystr :=
  if (b =? quote) || (b =? 92) then [92; b]
  else if b =? 9 then txt "\t" else if b =? 10 then txt "\n" else if b =? 13 then txt "\r"
  else if (b <? 32) || (127 <=? b) then txt "\x" ++ map (fun c => if c <? 65 then c else c + 32) (format 16 2 b)
  else [b].
Definition bytes_text (bs : list Z) : pystr :=
  let quote := if existsb (Z.eqb 39) bs && negb (existsb (Z.eqb 34) bs) then 34 else 39 in
  98 :: quote :: flat_map (byte_text quote) bs ++ [quote].

(** repr of an IntEnum member *)
Definition member (e : enum) (z : Z) : option string := dget Z.eqb z (e_members e).
Definition member_text (e : enum) (z : Z) : pystr :=
  match member e z with
  | Some n => txt "<" ++ txt (e_name e) ++ txt "." ++ txt n ++ txt ": " ++ str_of_Z z ++ txt ">"
  | None => str_of_Z z
  end.
(** which enum an attribute is declared with *)
Definition cls_name (c : cls) : string :=
  match c with CMsg s => s_name s | CRoute => "Zip.IMELastWorkingRoute" | COption => "Zip.ZIPPacketOption" | _ => "" end.
Definition enum_of (c : cls) (name : string) : option enum :=
  match find (fun x => String.eqb (fst (fst x)) (cls_name c) && String.eqb (snd (fst x)) name) enums with Some x => Some (snd x) | None => None end.

(** message.py l.64-70 *)
Definition message_text (h : Z) (name : string) : pystr :=
  let c := Z.land (Z.shiftr h 8) 255 in
  let cn := match dget Z.eqb c cmd_classes with Some n => txt n | None => txt "0x" ++ format 16 2 c end in
  let n := if String.eqb name "" then txt "0x" ++ format 16 2 (Z.land h 255) else txt name in
  txt "<Z-Wave " ++ cn ++ txt "." ++ n ++ txt ">".

Fixpoint sequence (l : list (res pystr)) : res (list pystr) :=
  match l with [] => Ok [] | x :: l' => do t <- x; do ts <- sequence l'; Ok (t :: ts) end.
Definition listed (a : pystr) (l : list (res pystr)) (b : pystr) : res pystr := do ts <- sequence l; Ok (a ++ join (txt ", ") ts ++ b).

Section Debug.
Variable str_text : pystr -> pystr.            (* str.__repr__ *)
Variable float_text : Z -> Z -> pystr.         (* float.__repr__ *)
Variable ip_text : Z -> pystr.                 (* str(ipaddress.IPv6Address) *)
Variable flag_text : enum -> Z -> pystr.       (* str(E(value)) for an IntFlag *)
Variable object_text : val -> pystr.           (* object.__repr__ *)
Variable ord : list Z -> list Z.

(** repr(v) for an instance of the plain types.  [enum_t] (types.py l.281-289) is in [attr_text]. *)
Fixpoint repr (v : val) : res pystr :=
  let pairs := fun key l => listed (txt "{") (map (fun p => match p with (k, x) => do t <- repr x; Ok (key k ++ txt ": " ++ t) end) l) (txt "}") in
  match v with
  | VNone => Ok (txt "None")
  | VBool b => Ok (txt (if b then "True" else "False"))
  | VInt z | VI true _ z | VU _ z | VDelay z => Ok (str_of_Z z)
  | VI false sz z => Ok (txt "0x" ++ format 16 sz z ++ txt " (" ++ str_of_Z z ++ txt ")")     (* types.py l.129-130 *)
  | VB n z => Ok (txt "bits_t(" ++ format 2 (Z.to_nat n) z ++ txt ")")                        (* types.py l.223-224 *)
  | VF z => Ok (txt "flag_t(" ++ txt (if z =? 0 then "False" else "True") ++ txt ")")         (* types.py l.260-261 *)
  | VPBytes bs | VBytes bs => Ok (bytes_text bs)
  | VStr s => Ok (str_text s)
  | VList l => listed (txt "[") (map repr l) (txt "]")
  | VTuple l => listed (txt "(") (map repr l) (txt (match l with [_] => ",)" | _ => ")" end))
  | VDict l => pairs str_of_Z l
  | VHdr l => pairs (member_text e_Zip_ZIPPacketOptionType) l
  | VMeta l => pairs (member_text e_NodeProvisioning_MetadataExtensionType) l
  | VMaint l => pairs (member_text e_Zip_IMEType) l
  | VFloat m p | VFloatT m p _ _ => Ok (float_text m p)
  | VDsk bs => dsk_text bs                                                                    (* types.py l.349-350 *)
  | VIPv6 z => Ok (txt "IPv6('" ++ ip_text z ++ txt "')")
  | VNodes l => listed (txt "[") (map (fun p => Ok (txt "(" ++ str_of_Z (fst p) ++ txt ", " ++ match snd p with Some e => str_of_Z e | None => txt "None" end ++ txt ")")) l) (txt "]")
  | VNodeList [] => Ok (txt "NodeList()")
  | VNodeList l => listed (txt "NodeList({") (map (fun z => Ok (str_of_Z z)) (ord l)) (txt "})")
  | VSensors [] => Ok (txt "SensorSupported()")
  | VSensors l => listed (txt "SensorSupported({") (map (fun z => Ok (member_text e_SensorMultilevel_SensorType z)) (ord l)) (txt "})")
  | VOptData => Ok (object_text v)
  | VObj (CMsg s) _ => Ok (message_text (s_hid s) (s_NAME s))
  | VObj CPure _ => Ok (message_text 0 "")
  | VObj (CUnknown h) _ => Ok (message_text h "")
  | VObj _ _ => Ok (object_text v)
  end.

(** types.py l.281-289 *)
Definition enum_text (e : enum) (z : Z) : pystr :=
  if e_flag e then flag_text e z ++ txt " (" ++ format 2 0 z ++ txt ")"
  else match member e z with
       | Some n => txt n ++ txt " (0x" ++ format 16 0 z ++ txt ")"
       | None => txt "UNKNOWN (0x" ++ format 16 0 z ++ txt ")"
       end.
Definition attr_text (e : option enum) (v : val) : res pystr :=
  match e with Some e => do z <- to_int v; Ok (enum_text e z) | None => repr v end.

Definition line (indent : nat) (name t : pystr) : pystr := repeat 9 (S indent) ++ name ++ txt " = " ++ t.
Definition block (head : pystr) (lines : list pystr) : pystr := head ++ txt ":" ++ [10] ++ join [10] lines.

(** What [debugString] puts after the equals sign: [value.debugString(indent + 1)] where there is one, else [repr(value)]; here [indent] is the argument.
    util.py l.42-53: attributes in the order of the class, those that are set; CommandClass.py l.33-42: entries in the order of the dictionary. *)
Fixpoint show (v : val) (e : option enum) (indent : nat) {struct v} : res pystr :=
  let entries := fun en l => map (fun p => match p with (k, x) => do t <- show x None (S indent); Ok (line indent (member_text en k) t) end) l in
  match v with
  | VObj c d =>
      let texts := map (fun p => match p with (n, x) => (n, show x (enum_of c n) (S indent)) end) d in
      do ls <- sequence (flat_map (fun a => match dget String.eqb (a_name a) texts with
                                            | Some r => [do t <- r; Ok (line indent (txt (a_name a)) t)]
                                            | None => []
                                            end) (class_attrs c));
      do h <- repr v;
      Ok (block h ls)
  | VHdr l => do ls <- sequence (entries e_Zip_ZIPPacketOptionType l); Ok (block (txt "HeaderExtension") ls)
  | VMeta l => do ls <- sequence (entries e_NodeProvisioning_MetadataExtensionType l); Ok (block (txt "MetadataExtension") ls)
  | VMaint l => do ls <- sequence (entries e_Zip_IMEType l); Ok (block (txt "ZIPPacketOptionMaintenanceReport") ls)
  | _ => attr_text e v
  end.
(** [v.debugString()] *)
Definition debug_string (v : val) : res pystr :=
  match v with VObj _ _ | VHdr _ | VMeta _ | VMaint _ => show v None 0 | _ => Err EAttribute end.
End Debug.
