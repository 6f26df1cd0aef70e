(** Model of the equality and hashing of structs with $Py.key:
    struct_.py:313-324, blob.py:83-104, the methods emitted by
    compiler/struct_.py:274-304 (_emit_key_maybe) and 306-354
    (_emit_fash_hash), and the part of CPython's == they go through. *)
From Coq Require Import QArith.QArith_base QArith.Qreduction.
From Verif Require Import Base Spec Ptr Hash.
Local Open Scope Z_scope.

(** A Python float: [FNum m e] is m * 2^e (-0.0 is 0 * 2^e, as no operation
    here tells it from 0.0). *)
Inductive pyfloat := FNan | FInf (negative : bool) | FNum (m e : Z).

(** The Python objects that can be found in a key. A struct with $Py.key is
    represented by the tuple its _key() returns (the values of the getters);
    [KNoKey] is a struct without the annotation. Enums are ints. A capnpy
    list is the address of the List object (a getter makes a new one at each
    access), and what List._equals looks at: the type of the items ([None]
    when they are structs), the number of items, the bytes of the list. *)
Inductive kv :=
| KNone | KInt (z : Z) | KBool (b : bool) | KFloat (f : pyfloat) | KBytes (b : bytes) | KText (u : list Z)
| KTuple (l : list kv) | KStruct (key : list kv) | KNoKey
| KList (address : Z) (item_type : option Z) (item_count : Z) (slice : bytes).

Definition beq (a b : bytes) : bool := if list_eq_dec Byte.byte_eq_dec a b then true else false.
Definition ueq (a b : list Z) : bool := if list_eq_dec Z.eq_dec a b then true else false.

(** m * 2^e, as a fraction *)
Definition dyadic (m e : Z) : Q := if 0 <=? e then inject_Z (m * 2 ^ e) else Qmake m (Z.to_pos (2 ^ (- e))).
(** CPython compares floats, and floats with ints, exactly; nan is different
    from everything. *)
Definition float_eq (a b : pyfloat) : bool :=
  match a, b with
  | FInf x, FInf y => Bool.eqb x y
  | FNum m e, FNum m' e' => Qeq_bool (dyadic m e) (dyadic m' e')
  | _, _ => false
  end.

(** == of two builtin scalars (CPython): bool is a subclass of int *)
Definition scalar_eq (a b : kv) : bool :=
  match a, b with
  | KNone, KNone => true
  | KInt x, KInt y => x =? y
  | KInt x, KBool y | KBool y, KInt x => x =? Z.b2z y
  | KBool x, KBool y => Bool.eqb x y
  | KFloat x, KFloat y => float_eq x y
  | KFloat x, KInt y | KInt y, KFloat x => float_eq x (FNum y 0)
  | KFloat x, KBool y | KBool y, KFloat x => float_eq x (FNum (Z.b2z y) 0)
  | KBytes x, KBytes y => beq x y
  | KText x, KText y => ueq x y
  | _, _ => false
  end.

(** list.py:87-96 (List._equals), called on a list *)
Definition list_equals (item_type : option Z) (count : Z) (slice : bytes) (other : kv) : res bool :=
  match item_type with
  | None => Err TypeError
  | Some t =>
      match other with
      | KList _ (Some t') count' slice' => Ok ((count =? count') && (t =? t') && beq slice slice')
      | _ => Ok false
      end
  end.

(** [a == b]. struct.__eq__ is Blob._cmp_eq, that is Struct._equals
    (struct_.py:320-324): [other == self._key()] when [other] is a Struct or a
    tuple, False otherwise; Struct._key raises TypeError (struct_.py:313-315).
    The __eq__ of the builtin types gives NotImplemented on a struct, and
    then the struct's own __eq__ is called. Tuples compare their items one
    after the other, then their lengths (CPython's shortcut for identical
    items is not modelled). Recursion is cut by fuel. *)
Fixpoint py_eq (fuel : nat) (a b : kv) : res bool :=
  match fuel with
  | O => Err OutOfFuel
  | S n =>
      let items := fix items (x y : list kv) : res bool :=
        match x, y with
        | [], [] => Ok true
        | u :: x', w :: y' =>
            do r <- py_eq n u w;
            if r then items x' y' else Ok false
        | _, _ => Ok false
        end in
      let equals (self_key : list kv) (other : kv) : res bool :=
        match other with
        | KStruct _ | KTuple _ | KNoKey => py_eq n other (KTuple self_key)
        | _ => Ok false
        end in
      match a, b with
      | KStruct ka, _ => equals ka b
      | KNoKey, (KStruct _ | KTuple _ | KNoKey) => Err TypeError
      | KNoKey, _ => Ok false
      | KList _ t c s, _ => list_equals t c s b
      | KTuple ta, KTuple tb => items ta tb
      | _, KStruct kb => equals kb a
      | KTuple _, KNoKey => Err TypeError
      | _, KNoKey => Ok false
      | _, KList _ t c s => list_equals t c s a
      | _, _ => Ok (scalar_eq a b)
      end
  end.

(** blob.py:89-90 (!=) *)
Definition py_ne (fuel : nat) (a b : kv) : res bool := do r <- py_eq fuel a b; Ok (negb r).

(** hash(x) for a float (CPython, _Py_HashDouble): m * 2^e modulo 2^61-1, in
    which 2^61 is 1, with the sign put back *)
Definition py_hash_float (f : pyfloat) : Z :=
  match f with
  | FNan => 0
  | FInf n => if n then -314159 else 314159
  | FNum m e =>
      let h := Z.sgn m * ((Z.abs m * 2 ^ (e mod 61)) mod py_hash_modulus) in
      if h =? -1 then -2 else h
  end.

Section hash.
  (** hash(None), hash of bytes and hash of unicode strings, whatever the
      interpreter's are; the hash of a List object at an address: List has no
      __hash__, so that it is the hash of the address in pure Python mode,
      where __eq__ is set after the class is made (blob.py:108-116), and
      TypeError for a Cython class with __richcmp__ *)
  Variables (hNone : Z) (hBytes : bytes -> Z) (hText : list Z -> Z) (hList : Z -> res Z).

  (** hash(x); Struct.__hash__ is hash(self._key()) (struct_.py:317-318) *)
  Fixpoint py_hash (x : kv) : res Z :=
    let items := fix items (l : list kv) : res (list Z) :=
      match l with
      | [] => Ok []
      | u :: r => do h <- py_hash u; do hs <- items r; Ok (h :: hs)
      end in
    match x with
    | KNone => Ok hNone
    | KInt z => Ok (py_hash_int z)
    | KBool b => Ok (py_hash_int (Z.b2z b))
    | KFloat f => Ok (py_hash_float f)
    | KBytes b => Ok (hBytes b)
    | KText u => Ok (hText u)
    | KTuple l => do hs <- items l; Ok (py_tuple_hash hs)
    | KStruct k => do hs <- items k; Ok (py_tuple_hash hs)
    | KNoKey => Err TypeError
    | KList a _ _ _ => hList a
    end.

  (** The fields of the key, as _emit_fash_hash sees them
      (compiler/struct_.py:314-325, 341-354): which C function hashes them *)
  Inductive kfield :=
  | KFInt          (* int8 .. uint32, int64 *)
  | KFUint64
  | KFTextBytes
  | KFTextUnicode
  | KFOther.       (* bool, float, enum, data, void, struct, group, list *)

  (** One h[i]; for a bytes text the emitted code assigns
      _hash_text_bytes(...) and then, because of a missing else, hash(self.x)
      over it: only the second assignment counts. _hash_text_unicode reads a
      null text as b'' (struct_.py:255-259). A C conversion error (value out
      of the C type) is an OverflowError. *)
  Definition fast_field (f : kfield) (x : kv) : res Z :=
    match f, x with
    | KFInt, KInt z => do z <- c_long z; inthash z
    | KFUint64, KInt z =>
        if (0 <=? z) && (z <? 2 ^ 64) then Ok (longhash z) else Err OverflowError
    | KFTextUnicode, KNone => Ok (hText [])
    | _, _ => py_hash x
    end.

  Fixpoint fast_fields (l : list (kfield * kv)) : res (list Z) :=
    match l with
    | [] => Ok []
    | (f, x) :: r => do h <- fast_field f x; do hs <- fast_fields r; Ok (h :: hs)
    end.

  (** the __hash__ emitted in PYX mode (compiler/struct_.py:310-328) *)
  Definition fast_hash (l : list (kfield * kv)) : res Z :=
    do hs <- fast_fields l; Ok (tuplehash hs).
End hash.

(** ** Specification *)

(** What a Python value is up to ==: a struct with a key is its tuple of key
    values, the numbers (bools, ints, floats) are rationals in lowest terms. *)
Inductive kn :=
| NNone | NNum (q : Q) | NInf (negative : bool) | NNan | NBytes (b : bytes) | NText (u : list Z)
| NTuple (l : list kn) | NNoKey | NList (item_type : option Z) (item_count : Z) (slice : bytes).
Fixpoint norm (x : kv) : kn :=
  match x with
  | KNone => NNone
  | KInt z => NNum (inject_Z z)
  | KBool b => NNum (inject_Z (Z.b2z b))
  | KFloat (FNum m e) => NNum (Qred (dyadic m e))
  | KFloat (FInf n) => NInf n
  | KFloat FNan => NNan
  | KBytes b => NBytes b
  | KText u => NText u
  | KTuple l => NTuple (map norm l)
  | KStruct k => NTuple (map norm k)
  | KNoKey => NNoKey
  | KList _ t c s => NList t c s
  end.

(** Every struct in it has a key, there are no nan and no lists of structs. *)
Fixpoint keyed (x : kv) : Prop :=
  match x with
  | KTuple l | KStruct l => (fix all l := match l with [] => True | y :: r => keyed y /\ all r end) l
  | KNoKey => False
  | KFloat FNan => False
  | KList _ None _ _ => False
  | _ => True
  end.
(** There are no capnpy lists in it. *)
Fixpoint no_lists (x : kv) : Prop :=
  match x with
  | KTuple l | KStruct l => (fix all l := match l with [] => True | y :: r => no_lists y /\ all r end) l
  | KList _ _ _ _ => False
  | _ => True
  end.

(** The number of nested calls of == needed. *)
Fixpoint kdepth (x : kv) : nat :=
  match x with
  | KTuple l => S (fold_right (fun y m => Nat.max (kdepth y) m) O l)
  | KStruct l => S (S (fold_right (fun y m => Nat.max (kdepth y) m) O l))
  | _ => 1%nat
  end.
