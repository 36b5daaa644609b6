(** Python basics used by the model: exceptions as values, byte strings, slicing, integer <-> bytes
    conversion, insertion ordered dictionaries and the little text handling pyzwave needs.

    Nothing here is pyzwave code; these are the CPython built-ins the modelled functions call. *)
From Coq Require Import ZArith List Bool.
Import ListNotations.
Open Scope Z_scope.

(** Exceptions that the modelled code can raise (or see raised). *)
Inductive exn : Type :=
| EEOF            (* EOFError *)
| EValue          (* ValueError *)
| EOverflow       (* OverflowError *)
| EAttribute      (* AttributeError *)
| EIndex          (* IndexError *)
| EKey            (* KeyError *)
| EType           (* TypeError *)
| EUnicode        (* UnicodeDecodeError *)
| ETimeout        (* asyncio.TimeoutError *)
| ECancelled      (* asyncio.CancelledError *)
| EInvalidState   (* asyncio.InvalidStateError *)
| ENotImplemented (* NotImplementedError *)
| ERuntime        (* RuntimeError *)
| EDuplicateAck   (* Exception("Duplicate ackid used!"), adapter.py l.229 *)
| EOther          (* any other exception, e.g. raised by user code *)
| EFuel           (* model only: recursion allowance used up; proved unreachable for decode *)
| EUnmodelled.    (* model only: a python value combination outside the model *)

Definition exn_eqb (a b : exn) : bool :=
  match a, b with
  | EEOF, EEOF | EValue, EValue | EOverflow, EOverflow | EAttribute, EAttribute | EIndex, EIndex
  | EKey, EKey | EType, EType | EUnicode, EUnicode | ETimeout, ETimeout | ECancelled, ECancelled
  | EInvalidState, EInvalidState | ENotImplemented, ENotImplemented | ERuntime, ERuntime
  | EDuplicateAck, EDuplicateAck | EOther, EOther | EFuel, EFuel | EUnmodelled, EUnmodelled => true
  | _, _ => false
  end.

Inductive res (A : Type) : Type :=
| Ok (a : A)
| Err (e : exn).
Arguments Ok {A} a.
Arguments Err {A} e.

Definition bind {A B} (x : res A) (f : A -> res B) : res B :=
  match x with Ok a => f a | Err e => Err e end.

Notation "'do' x <- a ; b" := (bind a (fun x => b)) (at level 200, x pattern, a at level 100, b at level 200).

(** Byte strings: lists of integers; [bytes_ok] says every element is a byte. *)
Definition is_byte (b : Z) : bool := (0 <=? b) && (b <? 256).
Definition bytes_ok (l : list Z) : Prop := Forall (fun b => 0 <= b < 256) l.

Definition zlen {A} (l : list A) : Z := Z.of_nat (length l).

(** Python sequence slicing [l[a:b]] with step 1, including negative indices. *)
Definition slice_index (n i : Z) : Z :=
  if i <? 0 then Z.max 0 (i + n) else Z.min i n.
Definition pyslice {A} (l : list A) (a b : Z) : list A :=
  let n := zlen l in
  let a' := slice_index n a in
  let b' := slice_index n b in
  firstn (Z.to_nat (b' - a')) (skipn (Z.to_nat a') l).

(** [int.from_bytes(bs, "big", signed=False)] *)
Definition from_bytes_u (bs : list Z) : Z := fold_left (fun acc b => acc * 256 + b) bs 0.
(** [int.from_bytes(bs, "big", signed=True)] *)
Definition from_bytes_s (bs : list Z) : Z :=
  let u := from_bytes_u bs in
  let n := 8 * zlen bs in
  if (0 <? n) && (2 ^ (n - 1) <=? u) then u - 2 ^ n else u.
Definition from_bytes (signed : bool) (bs : list Z) : Z :=
  if signed then from_bytes_s bs else from_bytes_u bs.

(** The [size] low bytes of [v], most significant first. *)
Fixpoint be_bytes (size : nat) (v : Z) : list Z :=
  match size with
  | O => []
  | S n => be_bytes n (v / 256) ++ [v mod 256]
  end.

(** [v.to_bytes(size, "big", signed=signed)]: OverflowError if the value does not fit,
    ValueError for a negative size. *)
Definition to_bytes (v size : Z) (signed : bool) : res (list Z) :=
  if size <? 0 then Err EValue
  else
    let fits :=
      if signed then
        if size =? 0 then v =? 0
        else (- 2 ^ (8 * size - 1) <=? v) && (v <? 2 ^ (8 * size - 1))
      else (0 <=? v) && (v <? 2 ^ (8 * size)) in
    if fits then Ok (be_bytes (Z.to_nat size) v) else Err EOverflow.

(** Insertion ordered dictionaries. *)
Section Dict.
  Context {K V : Type} (eqb : K -> K -> bool).

  Fixpoint dget (k : K) (d : list (K * V)) : option V :=
    match d with
    | [] => None
    | (k', v) :: d' => if eqb k k' then Some v else dget k d'
    end.

  (** [d[k] = v]: replaces in place or appends. *)
  Fixpoint dset (k : K) (v : V) (d : list (K * V)) : list (K * V) :=
    match d with
    | [] => [(k, v)]
    | (k', v') :: d' => if eqb k k' then (k', v) :: d' else (k', v') :: dset k v d'
    end.

  (** [d.pop(k, None)] / [del d[k]] (the caller decides whether a missing key is an error). *)
  Fixpoint ddel (k : K) (d : list (K * V)) : list (K * V) :=
    match d with
    | [] => []
    | (k', v') :: d' => if eqb k k' then ddel k d' else (k', v') :: ddel k d'
    end.

  Definition dmem (k : K) (d : list (K * V)) : bool :=
    match dget k d with Some _ => true | None => false end.
End Dict.

(** Text: lists of code points. *)
Definition pystr := list Z.

(** Decimal digits of a non-negative integer, most significant first ([str(n)]). *)
Fixpoint dec_digits (fuel : nat) (n : Z) (acc : pystr) : pystr :=
  match fuel with
  | O => acc
  | S f => if n <? 10 then (48 + n) :: acc
           else dec_digits f (n / 10) ((48 + n mod 10) :: acc)
  end.
Definition dec_fuel (n : Z) : nat := S (Z.to_nat (Z.log2 n)).
(** [str(z)] for an integer. *)
Definition str_of_Z (z : Z) : pystr :=
  if z <? 0 then 45 :: dec_digits (dec_fuel (- z)) (- z) []
  else dec_digits (dec_fuel z) z [].

Definition is_digit (c : Z) : bool := (48 <=? c) && (c <=? 57).
(** ASCII white space stripped by [int(text)].  Simplification: other unicode white space and digits are
    treated as non-numeric. *)
Definition is_space (c : Z) : bool :=
  ((9 <=? c) && (c <=? 13)) || ((28 <=? c) && (c <=? 32)).

Fixpoint lstrip (s : pystr) : pystr :=
  match s with
  | c :: s' => if is_space c then lstrip s' else s
  | [] => []
  end.
Definition strip (s : pystr) : pystr := rev (lstrip (rev (lstrip s))).

(** digits with single underscores between digits *)
Fixpoint digits_acc (s : pystr) (acc : Z) (prev_digit : bool) : option Z :=
  match s with
  | [] => if prev_digit then Some acc else None
  | c :: s' =>
      if is_digit c then digits_acc s' (acc * 10 + (c - 48)) true
      else if (c =? 95) && prev_digit then digits_acc s' acc false
      else None
  end.
(** [int(text)] (base 10): ValueError when the text is not a number. *)
Definition py_int (s : pystr) : res Z :=
  match strip s with
  | 45 :: t => match digits_acc t 0 false with Some n => Ok (- n) | None => Err EValue end
  | 43 :: t => match digits_acc t 0 false with Some n => Ok n | None => Err EValue end
  | t => match digits_acc t 0 false with Some n => Ok n | None => Err EValue end
  end.

(** [s.split(sep)] for a one character separator *)
Fixpoint split_on (sep : Z) (s : pystr) (cur : pystr) : list pystr :=
  match s with
  | [] => [rev cur]
  | c :: s' => if c =? sep then rev cur :: split_on sep s' [] else split_on sep s' (c :: cur)
  end.
Definition split (sep : Z) (s : pystr) : list pystr := split_on sep s [].

(** [sep.join(l)] *)
Fixpoint join (sep : pystr) (l : list pystr) : pystr :=
  match l with
  | [] => []
  | [x] => x
  | x :: l' => x ++ sep ++ join sep l'
  end.

(** UTF-8 decoding ([bytes.decode("utf-8")], strict).  Rejects overlong forms, surrogates and values above
    0x10FFFF, as CPython does. *)
Definition cont (b : Z) : bool := (128 <=? b) && (b <? 192).
Fixpoint utf8_decode (fuel : nat) (bs : list Z) : res pystr :=
  match fuel with
  | O => Ok []
  | S f =>
    match bs with
    | [] => Ok []
    | b :: r =>
      if b <? 128 then do t <- utf8_decode f r; Ok (b :: t)
      else if (194 <=? b) && (b <? 224) then
        match r with
        | c1 :: r' =>
            if cont c1 then do t <- utf8_decode f r'; Ok ((b - 192) * 64 + (c1 - 128) :: t)
            else Err EUnicode
        | _ => Err EUnicode
        end
      else if (224 <=? b) && (b <? 240) then
        match r with
        | c1 :: c2 :: r' =>
            let v := (b - 224) * 4096 + (c1 - 128) * 64 + (c2 - 128) in
            if cont c1 && cont c2 && (2048 <=? v) && negb ((55296 <=? v) && (v <? 57344))
            then do t <- utf8_decode f r'; Ok (v :: t) else Err EUnicode
        | _ => Err EUnicode
        end
      else if (240 <=? b) && (b <? 245) then
        match r with
        | c1 :: c2 :: c3 :: r' =>
            let v := (b - 240) * 262144 + (c1 - 128) * 4096 + (c2 - 128) * 64 + (c3 - 128) in
            if cont c1 && cont c2 && cont c3 && (65536 <=? v) && (v <? 1114112)
            then do t <- utf8_decode f r'; Ok (v :: t) else Err EUnicode
        | _ => Err EUnicode
        end
      else Err EUnicode
    end
  end.
Definition utf8 (bs : list Z) : res pystr := utf8_decode (S (length bs)) bs.
