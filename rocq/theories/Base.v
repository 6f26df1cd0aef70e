(** Bytes, little-endian numbers, Python slices, exceptions as values.
    This file models the pieces of CPython the library is written in terms of
    (the [struct] module, slicing of [bytes]/[bytearray]); it is trusted. *)
From Coq Require Export List ZArith Lia Bool.
From Coq Require Export Init.Byte.
From Coq Require Import Strings.Byte ZifyBool ZifyNat ZifyN.
Export ListNotations.
Open Scope Z_scope.

Ltac Zify.zify_post_hook ::= Z.div_mod_to_equations.

(** ** Bytes as numbers *)

(** The number 0..255 of a byte. *)
Definition bZ (b : byte) : Z := Z.of_N (Byte.to_N b).

(** The byte of a number, reduced modulo 256. *)
Definition Zb (z : Z) : byte :=
  match Byte.of_N (Z.to_N (z mod 256)) with
  | Some b => b
  | None => x00
  end.

(** ** Exceptions as values *)

(** The exceptions the modelled code can raise. [OutOfFuel] is not a Python
    exception: it marks recursion that was cut by the model's fuel.
    [MemFault] is not one either: it marks an access outside allocated memory
    in the model of the C code. *)
Inductive exn :=
| IndexError | ValueError | TypeError | AssertionError | EOFError | KeyError
| StructError | AttributeError | NotImplementedError | OverflowError | NameError | SyntaxError
| SystemError | OutOfFuel | MemFault.

Inductive res (A : Type) : Type :=
| Ok (a : A)
| Err (e : exn).
Arguments Ok {A} a.
Arguments Err {A} e.

Definition bind {A B} (r : res A) (f : A -> res B) : res B :=
  match r with
  | Ok a => f a
  | Err e => Err e
  end.

Notation "'do' x <- r ; k" := (bind r (fun x => k))
  (at level 60, x pattern, r at level 59, k at level 60, right associativity).

(** [assert c]: Python's assert statement. *)
Definition py_assert (c : bool) : res unit := if c then Ok tt else Err AssertionError.

(** ** Byte strings *)

Definition bytes := list byte.

Definition blen {A} (l : list A) : Z := Z.of_nat (length l).

Definition zeros (n : Z) : bytes := repeat x00 (Z.to_nat n).

(** [n] bytes of [l] from position [i]; both non-negative. *)
Definition sub {A} (l : list A) (i n : Z) : list A :=
  firstn (Z.to_nat n) (skipn (Z.to_nat i) l).

(** [l] with the bytes from position [i] overwritten by [bs]. *)
Definition upd {A} (l : list A) (i : Z) (bs : list A) : list A :=
  firstn (Z.to_nat i) l ++ bs ++ skipn (Z.to_nat (i + blen bs)) l.

(** Byte number [i] (only meaningful within bounds). *)
Definition getb (l : bytes) (i : Z) : byte := nth (Z.to_nat i) l x00.

(** Python's normalisation of a slice bound: negative bounds count from the
    end, everything is clamped to [0, len]. *)
Definition py_bound (n i : Z) : Z :=
  if i <? 0 then Z.max 0 (i + n) else Z.min i n.

(** Python's [l[lo:hi]]. *)
Definition py_slice {A} (l : list A) (lo hi : Z) : list A :=
  let a := py_bound (blen l) lo in
  let b := py_bound (blen l) hi in
  sub l a (b - a).

(** Python's [l[lo:hi] = src] on a bytearray (which may change its length). *)
Definition py_slice_set (l : bytes) (lo hi : Z) (src : bytes) : bytes :=
  let a := py_bound (blen l) lo in
  let b := Z.max a (py_bound (blen l) hi) in
  firstn (Z.to_nat a) l ++ src ++ skipn (Z.to_nat b) l.

(** Python's [l[i:]]. *)
Definition py_from {A} (l : list A) (i : Z) : list A :=
  skipn (Z.to_nat (py_bound (blen l) i)) l.

(** ** Little-endian numbers *)

Fixpoint le_dec (l : bytes) : Z :=
  match l with
  | [] => 0
  | b :: r => bZ b + 256 * le_dec r
  end.

Fixpoint le_enc (n : nat) (v : Z) : bytes :=
  match n with
  | O => []
  | S n' => Zb v :: le_enc n' (v / 256)
  end.

(** Two's complement reading of an unsigned number of [bits] bits. *)
Definition to_signed (bits u : Z) : Z :=
  if u <? 2 ^ (bits - 1) then u else u - 2 ^ bits.

(** ** Integer formats of the [struct] module *)

(** b B h H i I q Q *)
Inductive ifmt := Fb | FB | Fh | FH | Fi | FI | Fq | FQ.

(** struct.calcsize *)
Definition fsize (f : ifmt) : Z :=
  match f with
  | Fb | FB => 1
  | Fh | FH => 2
  | Fi | FI => 4
  | Fq | FQ => 8
  end.

Definition fsigned (f : ifmt) : bool :=
  match f with
  | Fb | Fh | Fi | Fq => true
  | FB | FH | FI | FQ => false
  end.

Definition fmin (f : ifmt) : Z := if fsigned f then - 2 ^ (8 * fsize f - 1) else 0.
Definition fmax (f : ifmt) : Z :=
  if fsigned f then 2 ^ (8 * fsize f - 1) - 1 else 2 ^ (8 * fsize f) - 1.

Definition in_fmt (f : ifmt) (v : Z) : Prop := fmin f <= v <= fmax f.
Definition in_fmtb (f : ifmt) (v : Z) : bool := (fmin f <=? v) && (v <=? fmax f).

(** Value of the [fsize f] bytes at [i] (in bounds). *)
Definition fdec (f : ifmt) (l : bytes) : Z :=
  if fsigned f then to_signed (8 * fsize f) (le_dec l) else le_dec l.

Definition fenc (f : ifmt) (v : Z) : bytes := le_enc (Z.to_nat (fsize f)) v.

(** struct.pack_into(fmt, buf, i, v): the value must be representable; a
    negative [i] counts from the end; the field must fit in the buffer;
    everything else is struct.error. *)
Definition pack_into (f : ifmt) (buf : bytes) (i v : Z) : res bytes :=
  if negb (in_fmtb f v) then Err StructError
  else
    let i' := if i <? 0 then i + blen buf else i in
    if (i' <? 0) || (blen buf <? i' + fsize f) then Err StructError
    else if (i <? 0) && (0 <? i + fsize f) then Err StructError
    else Ok (upd buf i' (fenc f v)).

(** struct.unpack_from(fmt, buf, i), same rules on [i]. *)
Definition unpack_from (f : ifmt) (buf : bytes) (i : Z) : res Z :=
  let i' := if i <? 0 then i + blen buf else i in
  if (i' <? 0) || (blen buf <? i' + fsize f) then Err StructError
  else if (i <? 0) && (0 <? i + fsize f) then Err StructError
  else Ok (fdec f (sub buf i' (fsize f))).

