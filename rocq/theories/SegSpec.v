(** Specification of messages with several segments, in the segmented address
    space of the Cap'n Proto encoding: an address is (segment number, byte
    offset in the segment); only far pointers cross segments. Nothing here
    refers to the flat buffer used by capnpy. *)
From Verif Require Import Base Spec.

Definition seg_bytes (segs : list bytes) (k i n : Z) : option bytes :=
  if k <? 0 then None
  else match nth_error segs (Z.to_nat k) with
       | None => None
       | Some b => bytes_at {| sbuf := b; soffs := None |} i n
       end.

(** [sfar segs p k i q]: the far pointer [p] leads to the ordinary pointer
    [q], to be interpreted as if it were at byte [i] of segment [k]. *)
Inductive sfar (segs : list bytes) (p : Z) : Z -> Z -> Z -> Prop :=
| sfar_one : forall q,
    p_farpad p = 0 ->
    seg_word segs (p_farseg p) (8 * p_faroff p) = Some q ->
    sfar segs p (p_farseg p) (8 * p_faroff p) q
| sfar_two : forall q tag,
    p_farpad p = 1 ->
    seg_word segs (p_farseg p) (8 * p_faroff p) = Some q ->
    seg_word segs (p_farseg p) (8 * p_faroff p + 8) = Some tag ->
    p_kind q = 2 -> p_farpad q = 0 -> p_off tag = 0 ->
    0 <= p_farseg q < blen segs ->
    sfar segs p (p_farseg q) (8 * p_faroff q - 8) tag.

(** [sden segs k p i v]: the pointer word [p] at byte [i] of segment [k]
    denotes [v]. *)
Inductive sden (segs : list bytes) : Z -> Z -> Z -> value -> Prop :=
| sden_null : forall k i, sden segs k 0 i VNull
| sden_struct : forall k p i data vs,
    p <> 0 -> p_kind p = 0 ->
    seg_bytes segs k (p_target p i) (8 * p_dsize p) = Some data ->
    sden_ptrs segs k (p_target p i + 8 * p_dsize p) (Z.to_nat (p_psize p)) vs ->
    sden segs k p i (VStruct data vs)
| sden_list : forall k p i body,
    p_kind p = 1 -> p_ltag p <= 5 ->
    seg_bytes segs k (p_target p i) (list_bytes (p_ltag p) (p_lcount p)) = Some body ->
    sden segs k p i (VList (p_ltag p) (p_lcount p) body)
| sden_plist : forall k p i vs,
    p_kind p = 1 -> p_ltag p = 6 ->
    sden_ptrs segs k (p_target p i) (Z.to_nat (p_lcount p)) vs ->
    sden segs k p i (VPtrs vs)
| sden_clist : forall k p i tag items slack,
    p_kind p = 1 -> p_ltag p = 7 ->
    seg_word segs k (p_target p i) = Some tag ->
    p_kind tag = 0 -> 0 <= p_off tag ->
    sden_items segs k (p_target p i + 8) (p_dsize tag) (p_psize tag)
               (Z.to_nat (p_off tag)) items ->
    seg_bytes segs k (p_target p i + 8 + 8 * ((p_dsize tag + p_psize tag) * p_off tag))
              (8 * (p_lcount p - (p_dsize tag + p_psize tag) * p_off tag)) = Some slack ->
    sden segs k p i (VComp (p_dsize tag) (p_psize tag) items slack)
| sden_far : forall k p i k' i' p' v,
    p_kind p = 2 -> sfar segs p k' i' p' -> p_kind p' <> 2 -> p' <> 0 ->
    sden segs k' p' i' v ->
    sden segs k p i v
with sden_ptrs (segs : list bytes) : Z -> Z -> nat -> list value -> Prop :=
| sdp_nil : forall k i, seg_bytes segs k i 0 = Some [] -> sden_ptrs segs k i 0 []
| sdp_cons : forall k i n p v vs,
    seg_word segs k i = Some p ->
    sden segs k p i v ->
    sden_ptrs segs k (i + 8) n vs ->
    sden_ptrs segs k i (S n) (v :: vs)
with sden_items (segs : list bytes) : Z -> Z -> Z -> Z -> nat -> list (bytes * list value) -> Prop :=
| sdi_nil : forall k i ds ps, sden_items segs k i ds ps 0 []
| sdi_cons : forall k i ds ps n data vs items,
    seg_bytes segs k i (8 * ds) = Some data ->
    sden_ptrs segs k (i + 8 * ds) (Z.to_nat ps) vs ->
    sden_items segs k (i + 8 * (ds + ps)) ds ps n items ->
    sden_items segs k i ds ps (S n) ((data, vs) :: items).
