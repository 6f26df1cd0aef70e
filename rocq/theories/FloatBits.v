(** Floats: the numbers a 32-bit and a 64-bit pattern stand for, and the
    conversions Python and C make between them and from integers.

    A Python float is a C double (sys.float_info: IEEE binary64). capnpy never
    computes with floats: it hands them to struct.pack_into('f' / 'd')
    (segment/builder.py:49-53, segment/builder.pyx: a C cast to float / double)
    and gets them from struct.unpack_from('<f' / '<d') (packing.py:24-28,
    packing.pyx: a C cast from float / double). What is modelled here is
    therefore CPython's and C's own conversion, to the nearest, ties to even
    (the default rounding mode), on bit patterns.

    Numbers are kept as integers, in units of the least positive number of the
    format: 2^-149 for Float32, 2^-1074 for Float64.

    Not modelled: the payload of a nan (the model keeps the sign and sets the
    quiet bit, and gives payload 0). *)
From Coq Require Import ZArith Lia Bool List.
Local Open Scope Z_scope.

(** A binary format: [fp] bits of precision, [fi] the pattern (without sign)
    of infinity, [fs] the weight of the sign bit, [fu] minus the exponent of
    the unit. *)
Record format := mkfmt { fp : Z; fi : Z; fs : Z; fu : Z }.
Definition single : format := {| fp := 24; fi := 255 * 2 ^ 23; fs := 2 ^ 31; fu := 149 |}.
Definition double : format := {| fp := 53; fi := 2047 * 2 ^ 52; fs := 2 ^ 63; fu := 1074 |}.

(** the sign, and the pattern without its sign *)
Definition neg (f : format) (b : Z) : bool := fs f <=? b.
Definition body (f : format) (b : Z) : Z := if neg f b then b - fs f else b.
Definition signed (f : format) (n : bool) (k : Z) : Z := if n then fs f + k else k.

(** What the bits mean (IEEE 754, 3.4): exponent field [k / 2^(p-1)], fraction
    [k mod 2^(p-1)], in units of the least positive number. *)
Definition mag (p k : Z) : Z :=
  let e := k / 2 ^ (p - 1) in
  let m := k mod 2 ^ (p - 1) in
  if e =? 0 then m else (2 ^ (p - 1) + m) * 2 ^ (e - 1).

(** n / 2^s to the nearest integer, ties to even *)
Definition rne (n s : Z) : Z :=
  let q := n / 2 ^ s in
  let r := n mod 2 ^ s in
  if 2 * r <? 2 ^ s then q else if 2 ^ s <? 2 * r then q + 1 else if Z.even q then q else q + 1.

(** The pattern (without sign, exponent unbounded) of the p-bit number nearest
    to n / 2^s units *)
Definition enc (p n s : Z) : Z :=
  let e := Z.max 0 (Z.log2 (n / 2 ^ s) - (p - 1)) in
  e * 2 ^ (p - 1) + rne n (s + e).

(** the same, with the numbers beyond the largest replaced by infinity *)
Definition round (f : format) (n s : Z) : Z := Z.min (fi f) (enc (fp f) n s).

(** C: [(float)x] for a double [x] (Objects/.. np_float in Modules/_struct.c,
    CPython; SegmentBuilder.write_float32 of builder.pyx) *)
Definition to32 (b : Z) : Z :=
  let k := body double b in
  signed single (neg double b)
    (if fi double <? k then fi single + 2 ^ 22
     else if k =? fi double then fi single
     else round single (mag (fp double) k) (fu double - fu single)).

(** C: [(double)x] for a float [x] (the value struct.unpack_from('<f') gives) *)
Definition to64 (b : Z) : Z :=
  let k := body single b in
  signed double (neg single b)
    (if fi single <? k then fi double + 2 ^ 51
     else if k =? fi single then fi double
     else round double (mag (fp single) k * 2 ^ (fu double - fu single)) 0).

(** PyFloat_AsDouble of an int (PyLong_AsDouble): the nearest double, ties to
    even; OverflowError ([None]) when that is beyond the largest one *)
Definition int_to64 (z : Z) : option Z :=
  let k := enc (fp double) (Z.abs z * 2 ^ fu double) 0 in
  if fi double <=? k then None else Some (signed double (z <? 0) k).

(** Comparing Python numbers: CPython compares floats, and floats with ints,
    exactly; nan is different from everything. [NFin v] is v * 2^-1074. *)
Inductive num := NFin (v : Z) | NInf (negative : bool) | NNan.
Definition num_float (b : Z) : num :=
  let k := body double b in
  if fi double <? k then NNan
  else if k =? fi double then NInf (neg double b)
  else NFin (if neg double b then - mag (fp double) k else mag (fp double) k).
Definition num_int (z : Z) : num := NFin (z * 2 ^ fu double).
Definition num_eqb (a b : num) : bool :=
  match a, b with
  | NFin x, NFin y => x =? y
  | NInf x, NInf y => Bool.eqb x y
  | _, _ => false
  end.
