(** Model of capnpy/_hash.pyx (Python 3 branch), capnpy/_hash_cpython.c
    (Python >= 3.8 branch), Segment.hash_str and Struct._hash_data. *)
From Verif Require Import Base Spec Ptr Segment Struct.

(** ** The specification: what CPython's hash() computes *)

(** The modulus of CPython's numeric hash on 64-bit platforms. *)
Definition py_hash_modulus : Z := 2 ^ 61 - 1.

(** hash(n) for an int n: the absolute value is reduced modulo 2^61-1, the
    sign is put back, and -1 (reserved for errors) becomes -2. *)
Definition py_hash_int (n : Z) : Z :=
  let m := Z.sgn n * (Z.abs n mod py_hash_modulus) in
  if m =? -1 then -2 else m.

(** hash(t) for a tuple, from the hashes of the items (CPython >= 3.8,
    xxHash-style), in arithmetic modulo 2^64. *)
Definition xx1 : Z := 11400714785074694791.
Definition xx2 : Z := 14029467366897019727.
Definition xx5 : Z := 2870177450012600261.
Definition rot31 (x : Z) : Z := (x * 2 ^ 31) mod 2 ^ 64 + x / 2 ^ 33.
Definition py_tuple_acc (acc h : Z) : Z :=
  (rot31 ((acc + (h mod 2 ^ 64) * xx2) mod 2 ^ 64) * xx1) mod 2 ^ 64.
Definition py_tuple_hash (hs : list Z) : Z :=
  let acc := fold_left py_tuple_acc hs xx5 in
  let acc := (acc + Z.lxor (blen hs) (Z.lxor xx5 3527539)) mod 2 ^ 64 in
  if acc =? 2 ^ 64 - 1 then 1546275796 else to_signed 64 acc.

(** ** The code *)

(** A C long: an operation whose result does not fit is undefined behaviour,
    reported as OverflowError. *)
Definition c_long (z : Z) : res Z :=
  if (- 2 ^ 63 <=? z) && (z <? 2 ^ 63) then Ok z else Err OverflowError.

(** _hash.h:13 and _hash.h:27 *)
Definition MINLONG : Z := -9223372036854775807 - 1.
Definition HASH_MASK : Z := Z.shiftl 1 61 - 1.

(** _hash.pyx:91-108 (_inthash_3), every intermediate result a C long *)
Definition inthash (v : Z) : res Z :=
  if v =? MINLONG then Ok (-4)
  else
    let neg := v <? 0 in
    do v <- (if neg then c_long (- v) else Ok v);
    do v <- c_long (Z.land v HASH_MASK + Z.shiftr v 61);
    do v <- (if HASH_MASK <=? v then c_long (v - HASH_MASK) else Ok v);
    if neg then
      do v <- c_long (- v);
      if v =? -1 then Ok (-2) else Ok v
    else Ok v.

(** An unsigned C long wraps around. *)
Definition c_ulong (z : Z) : Z := z mod 2 ^ 64.

(** _hash.pyx:110-114 (_longhash_3): unsigned arithmetic, the result is
    converted to long on return *)
Definition longhash (v : Z) : Z :=
  let v := c_ulong (Z.land v HASH_MASK + Z.shiftr v 61) in
  let v := if HASH_MASK <=? v then c_ulong (v - HASH_MASK) else v in
  to_signed 64 v.

(** _hash_cpython.c:8-42 (_cpython_tuplehash); a lane equal to -1 is an
    error, it returns -1 *)
Definition XXROTATE (x : Z) : Z := Z.lor (c_ulong (Z.shiftl x 31)) (Z.shiftr x 33).
Fixpoint tuplehash_loop (hashes : list Z) (acc : Z) : option Z :=
  match hashes with
  | [] => Some acc
  | h :: r =>
      let lane := c_ulong h in
      if lane =? c_ulong (-1) then None
      else
        let acc := c_ulong (acc + c_ulong (lane * 14029467366897019727)) in
        let acc := XXROTATE acc in
        let acc := c_ulong (acc * 11400714785074694791) in
        tuplehash_loop r acc
  end.
Definition tuplehash (hashes : list Z) : Z :=
  match tuplehash_loop hashes 2870177450012600261 with
  | None => -1
  | Some acc =>
      let acc := c_ulong (acc + Z.lxor (blen hashes) (Z.lxor 2870177450012600261 3527539)) in
      if acc =? c_ulong (-1) then 1546275796 else to_signed 64 acc
  end.

Section bytes_hash.
  (** _Py_HashBytes of the running interpreter: the hash of the [len] bytes
      at an address *)
  Variable H : bytes -> Z.

  (** _hash.pyx:24-36 (strhash); [MemFault] when the interpreter's function
      is given bytes outside of [a] *)
  Definition strhash (a : bytes) (start size : Z) : res Z :=
    let maxlen := blen a in
    if (maxlen <=? start) || (size =? 0) then Ok 0
    else
      let size := if maxlen <? size then maxlen - start else size in
      if (0 <=? start) && (0 <=? size) && (start + size <=? maxlen)
      then Ok (H (sub a start size))
      else Err MemFault.

  (** segment/segment.py:52-59 (hash_str) *)
  Definition hash_str (s : seg) (p ofs default_ additional_size : Z) : res Z :=
    if p =? 0 then Ok default_
    else
      do _ <- py_assert (kind p =? LIST);
      do _ <- py_assert (list_size_tag p =? LIST_SIZE_8);
      let start := deref p ofs in
      let size := list_item_count p + additional_size in
      strhash (sbuf s) start size.

  (** struct_.py:269-275 (_hash_data); _hash_text_bytes (struct_.py:247-248)
      is this with additional_size = -1 *)
  Definition o_hash_data (o : obj) (offset default_ additional_size : Z) : res Z :=
    do (offset, p) <- o_resolve o offset;
    hash_str (o_seg o) p offset default_ additional_size.
End bytes_hash.
