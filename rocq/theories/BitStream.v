(** pyzwave/types.py l.6-87: BitStreamReader and BitStreamWriter. *)
From Coq Require Import ZArith List Bool.
From Verif Require Import Py.
Import ListNotations.
Open Scope Z_scope.

(** types.py l.9-11: the buffer and the position in bits. *)
Record reader := mkR { r_val : list Z; r_pos : Z }.

Definition new_reader (bs : list Z) : reader := mkR bs 0.

(** types.py l.13-15 advance *)
Definition advance (n : Z) (r : reader) : reader := mkR (r_val r) (r_pos r + n).

(** types.py l.36, 49, 56: [int(self._start / 8)].  Simplification: python divides as float (exact below
    2^53 bits). *)
Definition startByte (r : reader) : Z := Z.quot (r_pos r) 8.

(** types.py l.34-37 bytesLeft *)
Definition bytesLeft (r : reader) : Z := zlen (r_val r) - startByte r.

(** types.py l.54-61 value: note that the position advances even if EOFError is raised; the exception always
    aborts the decode, so the reader is not returned with it. *)
Definition rvalue (size : Z) (r : reader) : res (list Z * reader) :=
  let sb := startByte r in
  let r' := advance (size * 8) r in
  if sb + size >? zlen (r_val r) then Err EEOF
  else Ok (pyslice (r_val r) sb (sb + size), r').

(** types.py l.43-45 peekValue *)
Definition peekValue (size : Z) (r : reader) : res (list Z) :=
  do (v, _) <- rvalue size r; Ok v.

(** types.py l.30-32 byte, l.39-41 peekByte: [int.from_bytes(value(1), "little")] of a one byte string *)
Definition rbyte (r : reader) : res (Z * reader) :=
  do (v, r') <- rvalue 1 r; Ok (from_bytes_u v, r').
Definition peekByte (r : reader) : res Z :=
  do (b, _) <- rbyte r; Ok b.

(** types.py l.21-28 bits *)
Definition rbits (size : Z) (r : reader) : res (Z * reader) :=
  let startBit := r_pos r mod 8 in
  do b <- peekByte r;
  let byte := Z.land (Z.shiftl b startBit) 255 in
  if 8 - size <? 0 then Err EValue   (* negative shift count *)
  else Ok (Z.land (Z.shiftr byte (8 - size)) 255, advance size r).

(** types.py l.17-19 bit *)
Definition rbit (r : reader) : res (Z * reader) := rbits 1 r.

(** types.py l.47-52 remaining: advances by the length of the *whole* buffer *)
Definition remaining (r : reader) : list Z * reader :=
  (pyslice (r_val r) (startByte r) (zlen (r_val r)), advance (zlen (r_val r) * 8) r).

(** types.py l.64-69: a bytearray and the number of bits used in the last byte. *)
Record writer := mkW { w_buf : list Z; w_start : Z }.

Definition new_writer : writer := mkW [] 0.

(** [bytearray.append] / [bytearray.extend]: ValueError outside 0..255; [_start] is not touched. *)
Definition wextend (bs : list Z) (w : writer) : res writer :=
  if forallb is_byte bs then Ok (mkW (w_buf w ++ bs) (w_start w)) else Err EValue.
Definition wappend (b : Z) (w : writer) : res writer := wextend [b] w.

(** types.py l.71-81 addBits *)
Definition addBits (value size : Z) (w : writer) : res writer :=
  let buf := if w_start w =? 0 then w_buf w ++ [0] else w_buf w in
  let byte := if w_start w =? 0 then 0 else last (w_buf w) 0 in
  let shift := 8 - w_start w - size in
  if shift <? 0 then Err EValue    (* negative shift count *)
  else
    let nb := Z.lor byte (Z.shiftl value shift) in
    if is_byte nb then Ok (mkW (removelast buf ++ [nb]) ((w_start w + size) mod 8))
    else Err EValue.               (* byte must be in range(0, 256) *)

(** types.py l.83-87 addBytes (endian is always "big" in this code base) *)
Definition addBytes (value size : Z) (signed : bool) (w : writer) : res writer :=
  do bs <- to_bytes value size signed;
  Ok (mkW (w_buf w ++ bs) 0).
