(** Specification for C79: versions of capnp, their order and their texts *)
From Coq Require Import Strings.String.
From Verif Require Import Base Case Loader.
From Coq Require Import Lists.List.
Local Open Scope list_scope.
Local Open Scope Z_scope.

(** [s] is the number [n], in decimal *)
Inductive numeral : str -> Z -> Prop :=
| nu_one : forall d, 0 <= d <= 9 -> numeral [48 + d] d
| nu_more : forall s n d, numeral s n -> 0 <= d <= 9 -> numeral (s ++ [48 + d]) (10 * n + d).

(** 1.2.3 *)
Inductive release_text : list Z -> str -> Prop :=
| rt_one : forall s n, numeral s n -> release_text [n] s
| rt_more : forall s n l t, numeral s n -> release_text l t -> release_text (n :: l) (s ++ lit "." ++ t).

(** 1.2.3, or 1.2.3-dev for the development version that comes before *)
Definition version_text (l : list Z) (dev : bool) (s : str) : Prop :=
  exists t, release_text l t /\ s = t ++ (if dev then lit "-dev" else []).

(** Missing numbers are zeros *)
Definition before (a b : list Z) : Prop :=
  exists i, (forall j, (j < i)%nat -> nth j a 0 = nth j b 0) /\ nth i a 0 < nth i b 0.
Definition same (a b : list Z) : Prop := forall i, nth i a 0 = nth i b 0.

(** Older than the release [b] *)
Definition older (l : list Z) (dev : bool) (b : list Z) : Prop := before l b \/ dev = true /\ same l b.

Definition white (s : str) : Prop := Forall (fun c => c = 32 \/ 9 <= c <= 13) s.
