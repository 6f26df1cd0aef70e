(** Specification of the hexadecimal dump: what a line, without its colours,
    says about a word. The fields of a pointer are those of Spec.v. *)
From Coq Require Import Strings.String.
From Verif Require Import Base Spec Case Loader ReprSpec.
From Coq Require Import Lists.List.
Local Notation length := Datatypes.length.

(** The text without ANSI escapes (from ESC to the letter m) *)
Fixpoint plain_from (inside : bool) (s : str) : str :=
  match s with
  | [] => []
  | c :: r => if inside then plain_from (negb (c =? 109)) r
              else if c =? 27 then plain_from true r else c :: plain_from false r
  end.
Definition plain (s : str) : str := plain_from false s.

(** [s] is the number [z] in decimal *)
Definition decimal (z : Z) (s : str) : Prop := int_lit s = Some (z, []).
(** padded with spaces up to [n] characters *)
Definition right (n : nat) (s t : str) : Prop := t = repeat 32 (n - length s) ++ s.
Definition left (n : nat) (s t : str) : Prop := t = s ++ repeat 32 (n - length s).

Definition hex_digits : str := lit "0123456789ABCDEF".
Definition hex_of (b : byte) (s : str) : Prop :=
  s = [nth (Z.to_nat (bZ b / 16)) hex_digits 0; nth (Z.to_nat (bZ b mod 16)) hex_digits 0].
(** separated by a space *)
Inductive hex_words : bytes -> str -> Prop :=
| hw_one : forall b s, hex_of b s -> hex_words [b] s
| hw_cons : forall b s w t, hex_of b s -> hex_words w t -> hex_words (b :: w) (s ++ [32] ++ t).

(** ASCII, or a dot *)
Definition char_of (b : byte) : Z := if (32 <=? bZ b) && (bZ b <? 128) then bZ b else 46.

(** a number that is small enough, or a question mark *)
Definition small (max x : Z) (s : str) : Prop := x < max /\ decimal x s \/ max <= x /\ s = lit "?".
Definition tag_name (t : Z) : string :=
  match t with 0 => "v" | 1 => "bit" | 2 => "8" | 3 => "16" | 4 => "32" | 5 => "64" | 6 => "ptr" | _ => "cmp" end.
(** the address that the pointer at [pos] points to, padded to [width] *)
Definition target (width : nat) (p pos : Z) (s : str) : Prop :=
  (Z.abs (p_off p) < 1000 /\ exists t, decimal (p_target p pos) t /\ left width t s) \/
  (1000 <= Z.abs (p_off p) /\ s = lit "?     ").

(** [p]: the word, as a number without sign *)
Inductive pointer (width : nat) (p pos : Z) : str -> Prop :=
| pt_null : p = 0 -> pointer width p pos (lit "NULL                     ")
| pt_struct : forall a b a' b' t, p <> 0 -> p_kind p = 0 ->
    small 100 (p_dsize p) a -> right 4 a a' -> small 100 (p_psize p) b -> right 3 b b' -> target width p pos t ->
    pointer width p pos (lit "struct " ++ a' ++ lit " " ++ b' ++ lit " to " ++ t)
| pt_list : forall n n' g t, p_kind p = 1 ->
    left 5 (lit "<" ++ lit (tag_name (p_ltag p)) ++ lit ">") g ->
    small 65536 (p_lcount p) n -> right 5 n n' -> target width p pos t ->
    pointer width p pos (lit "list" ++ g ++ lit " " ++ n' ++ lit " to " ++ t)
| pt_far : forall a a' b b' t, p_kind p = 2 ->
    decimal (p_farpad p) a -> right 7 a a' -> small 100 (p_farseg p) b -> right 3 b b' -> target width p pos t ->
    pointer width p pos (lit "far " ++ a' ++ lit " " ++ b' ++ lit " to " ++ t)
| pt_other : p_kind p = 3 -> pointer width p pos (lit "                         ").

(** the double: its usual text if that has at most 9 characters *)
Definition float_col (usual short : Z -> str) (v : Z) (s : str) : Prop :=
  (length (usual v) <= 9)%nat /\ right 9 (usual v) s \/ (9 < length (usual v))%nat /\ s = short v.

(** The line of the word with the bytes [w] at [pos]; addresses are aligned
    to [width] characters *)
Definition shows (width : nat) (usual short : Z -> str) (pos : Z) (w : bytes) (s : str) : Prop :=
  exists a a' h p f i,
    s = a' ++ lit ":  " ++ h ++ lit "  " ++ map char_of w ++ lit "  " ++ p ++ lit " " ++ f ++ lit "  " ++ i /\
    decimal pos a /\ right width a a' /\ hex_words w h /\ pointer width (le_dec w) pos p /\
    float_col usual short (le_dec w) f /\ decimal (to_signed 64 (le_dec w)) i.
