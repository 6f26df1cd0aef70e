(** What a float pattern means, and what "the nearest" is. Numbers are
    integers: every number of either format is a multiple of 2^-1074, and
    [fvalue] is the number times 2^1074. *)
From Coq Require Import ZArith.
From Verif Require Import FloatBits.
Local Open Scope Z_scope.

Definition bits (f : format) (b : Z) : Prop := 0 <= b < 2 * fs f.
Definition finite (f : format) (b : Z) : Prop := body f b < fi f.
Definition infinite (f : format) (b : Z) : Prop := body f b = fi f.
Definition is_nan (f : format) (b : Z) : Prop := fi f < body f b.

(** sign, exponent field and fraction: IEEE 754, 3.4. An exponent field of 0
    is a subnormal number, fraction * 2^(1-bias-(p-1)); otherwise the number
    is (2^(p-1) + fraction) * 2^(field-bias-(p-1)). *)
Definition fvalue (f : format) (b : Z) : Z :=
  (if neg f b then -1 else 1) * mag (fp f) (body f b) * 2 ^ (1074 - fu f).

(** [y] is a number of the format nearest to [v] (times 2^1074); of two
    equally near, the one with an even pattern *)
Definition nearest (f : format) (v y : Z) : Prop :=
  forall c, bits f c -> finite f c ->
    Z.abs (v - fvalue f y) <= Z.abs (v - fvalue f c) /\
    (Z.abs (v - fvalue f y) = Z.abs (v - fvalue f c) -> fvalue f c = fvalue f y \/ Z.even y = true).

(** halfway between the largest number of the format, (2^24 - 1) * 2^104 or
    (2^53 - 1) * 2^971, and the power of two after it *)
Definition overflow32 : Z := (2 ^ 128 - 2 ^ 103) * 2 ^ 1074.
Definition overflow64 : Z := (2 ^ 1024 - 2 ^ 970) * 2 ^ 1074.
