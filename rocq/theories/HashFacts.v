(** Facts about the hash functions. *)
From Verif Require Import Base Spec BaseFacts Ptr PtrFacts Segment SegmentFacts Struct List Query
  StructFacts EncFacts Hash.

Lemma fold_mod_mask v : 0 <= v -> Z.land v HASH_MASK = v mod 2 ^ 61.
Proof. intros. unfold HASH_MASK. change (Z.shiftl 1 61 - 1) with (Z.ones 61). apply Z.land_ones. lia. Qed.

Lemma shr61 v : Z.shiftr v 61 = v / 2 ^ 61.
Proof. apply Z.shiftr_div_pow2. lia. Qed.

(** one folding step and one conditional subtraction reduce modulo 2^61-1 *)
Lemma fold_mod v : 0 <= v < 2 ^ 64 ->
  let w := v mod 2 ^ 61 + v / 2 ^ 61 in
  v mod (2 ^ 61 - 1) = if 2 ^ 61 - 1 <=? w then w - (2 ^ 61 - 1) else w.
Proof.
  intros R w. subst w.
  destruct (Z.leb_spec (2 ^ 61 - 1) (v mod 2 ^ 61 + v / 2 ^ 61)) as [L|L]; symmetry.
  - apply (Z.mod_unique_pos _ _ (v / 2 ^ 61 + 1)); lia.
  - apply (Z.mod_unique_pos _ _ (v / 2 ^ 61)); lia.
Qed.

Lemma inthash_spec v : - 2 ^ 63 <= v < 2 ^ 63 -> inthash v = Ok (py_hash_int v).
Proof.
  intros R. unfold inthash, py_hash_int, py_hash_modulus, MINLONG.
  destruct (Z.eqb_spec v (-9223372036854775807 - 1)) as [->|N]; [reflexivity|].
  set (a := Z.abs v).
  assert (E : (if v <? 0 then c_long (- v) else Ok v) = Ok a).
  { unfold c_long, a. destruct (Z.ltb_spec v 0) as [L|L].
    - rewrite (proj2 (Z.leb_le _ _)), (proj2 (Z.ltb_lt _ _)) by lia. cbn [andb]. f_equal. lia.
    - f_equal. lia. }
  rewrite E. cbn [bind]. assert (A : 0 <= a < 2 ^ 63) by lia.
  rewrite fold_mod_mask, shr61 by lia.
  unfold c_long at 1.
  rewrite (proj2 (Z.leb_le _ _)), (proj2 (Z.ltb_lt _ _)) by lia. cbn [andb bind].
  pose proof (fold_mod a ltac:(lia)) as F. cbv zeta in F.
  set (w := a mod 2 ^ 61 + a / 2 ^ 61) in *.
  assert (E2 : (if HASH_MASK <=? w then c_long (w - HASH_MASK) else Ok w) = Ok (a mod (2 ^ 61 - 1))).
  { rewrite F. unfold HASH_MASK. change (Z.shiftl 1 61 - 1) with (2 ^ 61 - 1).
    assert (W : 0 <= w <= 2 ^ 61 + 2) by lia.
    destruct (Z.leb_spec (2 ^ 61 - 1) w); [|reflexivity].
    unfold c_long. rewrite (proj2 (Z.leb_le _ _)), (proj2 (Z.ltb_lt _ _)) by lia. reflexivity. }
  rewrite E2. cbn [bind].
  assert (M : 0 <= a mod (2 ^ 61 - 1) < 2 ^ 61 - 1) by (apply Z.mod_pos_bound; lia).
  destruct (Z.ltb_spec v 0) as [L|L].
  - unfold c_long. rewrite (proj2 (Z.leb_le _ _)), (proj2 (Z.ltb_lt _ _)) by lia. cbn [andb bind].
    replace (Z.sgn v) with (-1) by lia. fold a.
    replace (-1 * (a mod (2 ^ 61 - 1))) with (- (a mod (2 ^ 61 - 1))) by lia.
    destruct (Z.eqb_spec (- (a mod (2 ^ 61 - 1))) (-1)); reflexivity.
  - fold a. destruct (Z.eq_dec v 0) as [->|Nz].
    + reflexivity.
    + replace (Z.sgn v) with 1 by lia. rewrite Z.mul_1_l.
      rewrite (proj2 (Z.eqb_neq (a mod (2 ^ 61 - 1)) (-1))) by lia. reflexivity.
Qed.

Lemma longhash_spec v : 0 <= v < 2 ^ 64 -> longhash v = py_hash_int v.
Proof.
  intros R. unfold longhash, py_hash_int, py_hash_modulus, c_ulong.
  rewrite fold_mod_mask, shr61 by lia.
  pose proof (fold_mod v R) as F. cbv zeta in F.
  set (w := v mod 2 ^ 61 + v / 2 ^ 61) in *.
  assert (W : 0 <= w <= 2 ^ 61 + 6) by lia.
  rewrite (Z.mod_small w) by lia.
  unfold HASH_MASK. change (Z.shiftl 1 61 - 1) with (2 ^ 61 - 1).
  rewrite (Z.abs_eq v) by lia.
  assert (M : 0 <= v mod (2 ^ 61 - 1) < 2 ^ 61 - 1) by (apply Z.mod_pos_bound; lia).
  assert (E : (if 2 ^ 61 - 1 <=? w then (w - (2 ^ 61 - 1)) mod 2 ^ 64 else w) = v mod (2 ^ 61 - 1)).
  { rewrite F. destruct (Z.leb_spec (2 ^ 61 - 1) w); [|reflexivity]. apply Z.mod_small. lia. }
  rewrite E. unfold to_signed.
  rewrite (proj2 (Z.ltb_lt _ _)) by (change (64 - 1) with 63; lia).
  destruct (Z.eq_dec v 0) as [->|Nz]; [reflexivity|].
  replace (Z.sgn v) with 1 by lia. rewrite Z.mul_1_l.
  rewrite (proj2 (Z.eqb_neq (v mod (2 ^ 61 - 1)) (-1))) by lia. reflexivity.
Qed.

Lemma rotate_spec x : 0 <= x < 2 ^ 64 -> XXROTATE x = rot31 x.
Proof.
  intros R. unfold XXROTATE, rot31, c_ulong. rewrite Z.shiftl_mul_pow2, Z.shiftr_div_pow2 by lia.
  assert (E : (x * 2 ^ 31) mod 2 ^ 64 = (x mod 2 ^ 33) * 2 ^ 31).
  { replace (2 ^ 64) with (2 ^ 33 * 2 ^ 31) by lia. rewrite Z.mul_mod_distr_r by lia. reflexivity. }
  rewrite E. rewrite (Z.mul_comm (x mod 2 ^ 33)).
  apply lor_disjoint; lia.
Qed.

Lemma tuplehash_loop_spec hs : forall acc, 0 <= acc < 2 ^ 64 -> Forall (fun h => - 2 ^ 63 <= h < 2 ^ 63 /\ h <> -1) hs ->
  tuplehash_loop hs acc = Some (fold_left py_tuple_acc hs acc).
Proof.
  induction hs as [|h hs IH]; intros acc A F; [reflexivity|].
  inversion_clear F as [|? ? [R N] F']. cbn [tuplehash_loop fold_left].
  unfold c_ulong at 1 2. rewrite (proj2 (Z.eqb_neq _ _)) by lia.
  assert (E : c_ulong (XXROTATE (c_ulong (acc + c_ulong (c_ulong h * 14029467366897019727))) *
                       11400714785074694791) = py_tuple_acc acc h).
  { unfold py_tuple_acc, c_ulong, xx1, xx2.
    rewrite Zplus_mod_idemp_r. rewrite rotate_spec by (apply Z.mod_pos_bound; lia). reflexivity. }
  rewrite E. apply IH; [|exact F']. unfold py_tuple_acc. apply Z.mod_pos_bound. lia.
Qed.

Lemma tuplehash_spec hs : Forall (fun h => - 2 ^ 63 <= h < 2 ^ 63 /\ h <> -1) hs ->
  tuplehash hs = py_tuple_hash hs.
Proof.
  intros F. unfold tuplehash. change 2870177450012600261 with xx5.
  rewrite tuplehash_loop_spec by (try exact F; unfold xx5; lia). reflexivity.
Qed.

(** ** Strings *)

Lemma strhash_spec H a start size : H [] = 0 -> 0 <= start -> 0 <= size ->
  (start < blen a -> size <= blen a -> start + size <= blen a) ->
  strhash H a start size = Ok (H (py_slice a start (start + size))).
Proof.
  intros H0 S0 Z0 C. unfold strhash.
  destruct (Z.leb_spec (blen a) start) as [L|L]; cbn [orb].
  - f_equal. unfold py_slice, py_bound.
    rewrite (proj2 (Z.ltb_ge start 0)), (proj2 (Z.ltb_ge (start + size) 0)) by lia.
    rewrite (Z.min_r start), (Z.min_r (start + size)) by lia. rewrite Z.sub_diag.
    unfold sub. cbn [Z.to_nat firstn]. congruence.
  - destruct (Z.eqb_spec size 0) as [->|Nz].
    + f_equal. rewrite Z.add_0_r. unfold py_slice. rewrite Z.sub_diag. unfold sub. cbn [Z.to_nat firstn]. congruence.
    + destruct (Z.ltb_spec (blen a) size) as [B|B].
      * rewrite (proj2 (Z.leb_le 0 start)), (proj2 (Z.leb_le 0 (blen a - start))),
          (proj2 (Z.leb_le (start + (blen a - start)) (blen a))) by lia. cbn [andb].
        do 2 f_equal. unfold py_slice, py_bound.
        rewrite (proj2 (Z.ltb_ge start 0)), (proj2 (Z.ltb_ge (start + size) 0)) by lia.
        rewrite (Z.min_l start), (Z.min_r (start + size)) by lia. reflexivity.
      * rewrite (proj2 (Z.leb_le 0 start)), (proj2 (Z.leb_le 0 size)),
          (proj2 (Z.leb_le (start + size) (blen a))) by lia. cbn [andb].
        do 2 f_equal. unfold py_slice, py_bound.
        rewrite (proj2 (Z.ltb_ge start 0)), (proj2 (Z.ltb_ge (start + size) 0)) by lia.
        rewrite (Z.min_l start), (Z.min_l (start + size)) by lia. f_equal. lia.
Qed.

(** the case the clamping forgets *)
Lemma strhash_overread H a start size :
  0 <= start < blen a -> size <= blen a -> blen a < start + size ->
  strhash H a start size = Err MemFault.
Proof.
  intros R S O. unfold strhash.
  rewrite (proj2 (Z.leb_gt (blen a) start)), (proj2 (Z.eqb_neq size 0)), (proj2 (Z.ltb_ge (blen a) size)) by lia.
  cbn [orb]. rewrite (proj2 (Z.leb_gt (start + size) (blen a))) by lia. now rewrite andb_false_r.
Qed.

(** the hash of a text or data field is the hash of what the getter returns *)
Lemma o_hash_data_spec H o d vs k dflt add r :
  obj_den o d vs -> 0 <= k -> H [] = 0 ->
  vbytes (v_ptr vs k) None add = Some r ->
  o_hash_data H o (8 * k) dflt add =
    match r with Ok None => Ok dflt | Ok (Some b) => Ok (H b) | Err e => Err e end.
Proof.
  intros O Hk H0 V. destruct (o_resolve_spec o d vs k O Hk) as (pos & p & R & K & D).
  unfold o_hash_data. rewrite R. cbn [bind]. clear R.
  unfold hash_str. rewrite kind_spec, size_tag_spec, deref_spec, item_count_spec.
  unfold LIST, LIST_SIZE_8.
  pose proof (den_kind0 _ _ _ _ D K) as DK. revert D DK V. generalize (v_ptr vs k). intros v D DK V.
  destruct v as [|d0 vs0|t c b|vs0|ds ps items sl]; cbn [vbytes] in V.
  - subst p. cbn [Z.eqb]. injection V as <-. reflexivity.
  - destruct DK as [N K0]. apply Z.eqb_neq in N. rewrite N, K0. cbn [Z.eqb py_assert bind]. injection V as <-. reflexivity.
  - destruct DK as [N K0]. pose proof N as N'. apply Z.eqb_neq in N'. rewrite N', K0.
    cbn [Z.eqb Pos.eqb py_assert bind].
    inversion D as [| |? ? ? K1 T1 B1| | |]; subst; [|congruence].
    destruct (Z.eqb_spec (p_ltag p) 2) as [T|T].
    + rewrite T in *. cbn [py_assert bind].
      destruct ((0 <=? p_lcount p + add) && (add <=? 0)) eqn:C; [|discriminate].
      destruct (bytes_at_some _ _ _ _ B1) as (Q1 & Q2 & Q3 & Q4 & Q5).
      change (list_bytes 2 (p_lcount p)) with (p_lcount p) in *.
      unfold slen in *. injection V as <-.
      rewrite strhash_spec; [|assumption|lia|lia|lia].
      rewrite py_slice_in by lia. rewrite Q4. rewrite sub_sub by lia.
      replace (p_target p pos + (p_lcount p + add) - p_target p pos) with (p_lcount p + add) by lia.
      rewrite Z.add_0_r. reflexivity.
    + cbn [py_assert bind]. injection V as <-. reflexivity.
  - destruct DK as [N K0]. pose proof N as N'. apply Z.eqb_neq in N'. rewrite N', K0.
    cbn [Z.eqb Pos.eqb py_assert bind].
    inversion D; subst; [|congruence].
    match goal with H : p_ltag p = 6 |- _ => rewrite H end. cbn. injection V as <-. reflexivity.
  - destruct DK as [N K0]. pose proof N as N'. apply Z.eqb_neq in N'. rewrite N', K0.
    cbn [Z.eqb Pos.eqb py_assert bind].
    inversion D; subst; [|congruence].
    match goal with H : p_ltag p = 7 |- _ => rewrite H end. cbn. injection V as <-. reflexivity.
Qed.
