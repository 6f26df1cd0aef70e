(** ptr.py computes the pointer fields of the specification; ptr.h agrees. *)
From Verif Require Import Base BaseFacts Spec Ptr.
From Coq Require Import ZifyBool.

Ltac Zify.zify_post_hook ::= Z.div_mod_to_equations.

(** ** bit operations as arithmetic *)

Lemma land_mask x n : 0 <= n -> Z.land x (2 ^ n - 1) = x mod 2 ^ n.
Proof. intros. rewrite <- Z.land_ones by lia. rewrite Z.ones_equiv. f_equal. Qed.

Lemma land_shl_mask x a n :
  0 <= a -> 0 <= n -> Z.land (Z.shiftl x a) (Z.shiftl (2 ^ n - 1) a) = 2 ^ a * (x mod 2 ^ n).
Proof.
  intros. rewrite <- Z.shiftl_land, land_mask, Z.shiftl_mul_pow2 by lia. lia.
Qed.

Lemma lor_disjoint a b n :
  0 <= n -> 0 <= b < 2 ^ n -> Z.lor (2 ^ n * a) b = 2 ^ n * a + b.
Proof.
  intros Hn Hb.
  assert (E : Z.land (2 ^ n * a) b = 0).
  { apply Z.bits_inj'. intros i Hi. rewrite Z.land_spec, Z.bits_0.
    rewrite Z.mul_comm.
    destruct (Z.lt_ge_cases i n).
    - rewrite Z.mul_pow2_bits_low by lia. reflexivity.
    - replace b with (b mod 2 ^ n) by (apply Z.mod_small; lia).
      rewrite Z.mod_pow2_bits_high by lia. apply andb_false_r. }
  rewrite <- Z.lxor_lor by exact E.
  symmetry. apply Z.add_nocarry_lxor. exact E.
Qed.

Lemma lor_disjoint' a b n x :
  0 <= n -> 0 <= b < 2 ^ n -> x = 2 ^ n * a -> Z.lor x b = x + b.
Proof. intros. subst x. apply lor_disjoint; assumption. Qed.

Lemma as_signed_spec x n : 0 < n -> as_signed x n = to_signed n x.
Proof.
  intros. unfold as_signed, to_signed. rewrite !Z.shiftl_mul_pow2, !Z.mul_1_l by lia.
  destruct (2 ^ (n - 1) <=? x) eqn:?, (x <? 2 ^ (n - 1)) eqn:?; lia || reflexivity.
Qed.

(** ** decoders *)

Lemma kind_spec p : kind p = p_kind p.
Proof. unfold kind, p_kind. apply (land_mask p 2). lia. Qed.

Lemma offset_spec p : offset p = p_off p.
Proof.
  unfold offset, p_off. rewrite as_signed_spec by lia. f_equal.
  rewrite Z.shiftr_div_pow2 by lia. apply (land_mask _ 30). lia.
Qed.

Lemma data_size_spec p : struct_data_size p = p_dsize p.
Proof.
  unfold struct_data_size, p_dsize. rewrite Z.shiftr_div_pow2 by lia.
  apply (land_mask _ 16). lia.
Qed.

Lemma ptrs_size_spec p : struct_ptrs_size p = p_psize p.
Proof.
  unfold struct_ptrs_size, p_psize. rewrite Z.shiftr_div_pow2 by lia.
  apply (land_mask _ 16). lia.
Qed.

Lemma size_tag_spec p : list_size_tag p = p_ltag p.
Proof.
  unfold list_size_tag, p_ltag. rewrite Z.shiftr_div_pow2 by lia.
  apply (land_mask _ 3). lia.
Qed.

Lemma item_count_spec p : list_item_count p = p_lcount p.
Proof.
  unfold list_item_count, p_lcount. rewrite Z.shiftr_div_pow2 by lia.
  apply (land_mask _ 29). lia.
Qed.

Lemma far_pad_spec p : far_landing_pad p = p_farpad p.
Proof.
  unfold far_landing_pad, p_farpad. rewrite Z.shiftr_div_pow2 by lia.
  apply (land_mask _ 1). lia.
Qed.

Lemma far_offset_spec p : far_offset p = p_faroff p.
Proof.
  unfold far_offset, p_faroff. rewrite Z.shiftr_div_pow2 by lia.
  apply (land_mask _ 29). lia.
Qed.

Lemma far_target_spec p : far_target p = p_farseg p.
Proof.
  unfold far_target, p_farseg. rewrite Z.shiftr_div_pow2 by lia.
  apply (land_mask _ 32). lia.
Qed.

Lemma deref_spec p pos : deref p pos = p_target p pos.
Proof. unfold deref, p_target. rewrite offset_spec. lia. Qed.

Lemma round_up_spec x : round_up_to_word x = 8 * ((x + 7) / 8).
Proof.
  unfold round_up_to_word. change (8 - 1) with 7.
  change (-8) with (Z.lnot (Z.ones 3)).
  rewrite <- Z.ldiff_land. rewrite Z.ldiff_ones_r by lia.
  rewrite Z.shiftl_mul_pow2, Z.shiftr_div_pow2 by lia. change (2 ^ 3) with 8. lia.
Qed.

Lemma extra_spec p : extra p = p / 2 ^ 32.
Proof. unfold extra. apply Z.shiftr_div_pow2. lia. Qed.

(** ranges of the decoded fields *)
Lemma p_kind_range p : 0 <= p_kind p < 4.
Proof. unfold p_kind. lia. Qed.
Lemma p_off_range p : - 2 ^ 29 <= p_off p < 2 ^ 29.
Proof. unfold p_off. apply (to_signed_range 30); lia. Qed.
Lemma p_dsize_range p : 0 <= p_dsize p < 2 ^ 16.
Proof. unfold p_dsize. lia. Qed.
Lemma p_psize_range p : 0 <= p_psize p < 2 ^ 16.
Proof. unfold p_psize. lia. Qed.
Lemma p_ltag_range p : 0 <= p_ltag p < 8.
Proof. unfold p_ltag. lia. Qed.
Lemma p_lcount_range p : 0 <= p_lcount p < 2 ^ 29.
Proof. unfold p_lcount. lia. Qed.
Lemma p_farpad_range p : 0 <= p_farpad p < 2.
Proof. unfold p_farpad. lia. Qed.
Lemma p_faroff_range p : 0 <= p_faroff p < 2 ^ 29.
Proof. unfold p_faroff. lia. Qed.
Lemma p_farseg_range p : 0 <= p_farseg p < 2 ^ 32.
Proof. unfold p_farseg. lia. Qed.

(** ** encoders *)

Lemma new_struct_spec off ds ps :
  0 <= ds < 2 ^ 16 -> new_struct off ds ps = w_struct off ds ps.
Proof.
  intros Hd. unfold new_struct, w_struct, STRUCT. cbv zeta.
  rewrite Z.lor_0_l, Z.lor_0_r.
  change 0xffff00000000 with (Z.shiftl (2 ^ 16 - 1) 32).
  change 0xfffffffc with (Z.shiftl (2 ^ 30 - 1) 2).
  rewrite !land_shl_mask by lia.
  rewrite (Z.mod_small ds) by lia.
  rewrite Z.shiftl_mul_pow2 by lia.
  rewrite (lor_disjoint' ps (2 ^ 32 * ds) 48 (ps * 2 ^ 48)) by lia.
  rewrite (lor_disjoint' (ps * 2 ^ 16 + ds) _ 32) by lia.
  change (2 ^ 2) with 4. lia.
Qed.

Lemma new_list_spec off tag n :
  0 <= tag < 8 -> new_list off tag n = w_list off tag n.
Proof.
  intros Ht. unfold new_list, w_list, LIST. cbv zeta.
  rewrite Z.lor_0_l.
  change 0x700000000 with (Z.shiftl (2 ^ 3 - 1) 32).
  change 0xfffffffc with (Z.shiftl (2 ^ 30 - 1) 2).
  rewrite !land_shl_mask by lia.
  rewrite (Z.mod_small tag) by lia.
  rewrite Z.shiftl_mul_pow2 by lia.
  rewrite (lor_disjoint' n (2 ^ 32 * tag) 35 (n * 2 ^ 35)) by lia.
  rewrite (lor_disjoint' (n * 2 ^ 3 + tag) (2 ^ 2 * (off mod 2 ^ 30)) 32 (n * 2 ^ 35 + 2 ^ 32 * tag)) by lia.
  rewrite (lor_disjoint' ((n * 2 ^ 3 + tag) * 2 ^ 30 + off mod 2 ^ 30) _ 2) by lia.
  change (2 ^ 2) with 4. lia.
Qed.

Lemma new_far_spec pad off sg :
  0 <= pad < 2 -> 0 <= off < 2 ^ 29 -> new_far pad off sg = w_far pad off sg.
Proof.
  intros Hp Ho. unfold new_far, w_far, FAR. cbv zeta.
  rewrite Z.lor_0_l.
  change 0xfffffff8 with (Z.shiftl (2 ^ 29 - 1) 3).
  change 4 with (Z.shiftl (2 ^ 1 - 1) 2) at 1.
  rewrite !land_shl_mask by lia.
  rewrite (Z.mod_small off), (Z.mod_small pad) by lia.
  rewrite Z.shiftl_mul_pow2 by lia.
  rewrite (lor_disjoint' sg (2 ^ 3 * off) 32 (sg * 2 ^ 32)) by lia.
  rewrite (lor_disjoint' (sg * 2 ^ 29 + off) (2 ^ 2 * pad) 3 (sg * 2 ^ 32 + 2 ^ 3 * off)) by lia.
  rewrite (lor_disjoint' ((sg * 2 ^ 29 + off) * 2 + pad) _ 2) by lia.
  lia.
Qed.

Lemma new_generic_spec k off ext :
  0 <= k < 4 -> new_generic k off ext = Z.lor (2 ^ 32 * ext) (4 * off) + k.
Proof.
  intros. unfold new_generic. rewrite Z.lor_0_l, !Z.shiftl_mul_pow2 by lia.
  rewrite (Z.mul_comm ext), (Z.mul_comm off).
  change (2 ^ 2) with 4.
  rewrite (lor_disjoint' (Z.lor (2 ^ 30 * ext) off) _ 2); [reflexivity|lia..|].
  rewrite (Z.mul_comm (2 ^ 2) (Z.lor _ _)), <- Z.shiftl_mul_pow2, Z.shiftl_lor by lia.
  rewrite !Z.shiftl_mul_pow2 by lia. f_equal; lia.
Qed.

(** decoding what the encoders of the specification produce *)

Lemma p_off_of off : - 2 ^ 29 <= off < 2 ^ 29 -> to_signed 30 (off mod 2 ^ 30) = off.
Proof. intros. apply to_signed_mod; lia. Qed.

Section dec_struct.
  Variables off ds ps : Z.
  Hypothesis (Hds : 0 <= ds < 2 ^ 16) (Hps : 0 <= ps < 2 ^ 16).

  Lemma w_struct_kind : p_kind (w_struct off ds ps) = 0.
  Proof. unfold p_kind, w_struct. lia. Qed.
  Lemma w_struct_off : - 2 ^ 29 <= off < 2 ^ 29 -> p_off (w_struct off ds ps) = off.
  Proof.
    intros. unfold p_off, w_struct. rewrite <- (p_off_of off) at 2 by lia. f_equal. lia.
  Qed.
  Lemma w_struct_dsize : p_dsize (w_struct off ds ps) = ds.
  Proof. unfold p_dsize, w_struct. lia. Qed.
  Lemma w_struct_psize : p_psize (w_struct off ds ps) = ps.
  Proof. unfold p_psize, w_struct. lia. Qed.
  Lemma w_struct_range : 0 <= w_struct off ds ps < 2 ^ 64.
  Proof. unfold w_struct. lia. Qed.
End dec_struct.

Section dec_list.
  Variables off tag n : Z.
  Hypothesis (Ht : 0 <= tag < 8) (Hn : 0 <= n < 2 ^ 29).

  Lemma w_list_kind : p_kind (w_list off tag n) = 1.
  Proof. unfold p_kind, w_list. lia. Qed.
  Lemma w_list_off : - 2 ^ 29 <= off < 2 ^ 29 -> p_off (w_list off tag n) = off.
  Proof.
    intros. unfold p_off, w_list. rewrite <- (p_off_of off) at 2 by lia. f_equal. lia.
  Qed.
  Lemma w_list_tag : p_ltag (w_list off tag n) = tag.
  Proof. unfold p_ltag, w_list. lia. Qed.
  Lemma w_list_count : p_lcount (w_list off tag n) = n.
  Proof. unfold p_lcount, w_list. lia. Qed.
  Lemma w_list_range : 0 <= w_list off tag n < 2 ^ 64.
  Proof. unfold w_list. lia. Qed.
End dec_list.

Section dec_far.
  Variables pad off sg : Z.
  Hypothesis (Hp : 0 <= pad < 2) (Ho : 0 <= off < 2 ^ 29) (Hs : 0 <= sg < 2 ^ 32).

  Lemma w_far_kind : p_kind (w_far pad off sg) = 2.
  Proof. unfold p_kind, w_far. lia. Qed.
  Lemma w_far_pad : p_farpad (w_far pad off sg) = pad.
  Proof. unfold p_farpad, w_far. lia. Qed.
  Lemma w_far_off : p_faroff (w_far pad off sg) = off.
  Proof. unfold p_faroff, w_far. lia. Qed.
  Lemma w_far_seg : p_farseg (w_far pad off sg) = sg.
  Proof. unfold p_farseg, w_far. lia. Qed.
  Lemma w_far_range : 0 <= w_far pad off sg < 2 ^ 64.
  Proof. unfold w_far. lia. Qed.
End dec_far.

(** the fields only depend on the word modulo 2^64 *)
Lemma p_fields_mod p :
  p_kind (p mod 2 ^ 64) = p_kind p /\ p_off (p mod 2 ^ 64) = p_off p /\
  p_dsize (p mod 2 ^ 64) = p_dsize p /\ p_psize (p mod 2 ^ 64) = p_psize p /\
  p_ltag (p mod 2 ^ 64) = p_ltag p /\ p_lcount (p mod 2 ^ 64) = p_lcount p /\
  p_farpad (p mod 2 ^ 64) = p_farpad p /\ p_faroff (p mod 2 ^ 64) = p_faroff p /\
  p_farseg (p mod 2 ^ 64) = p_farseg p.
Proof.
  unfold p_kind, p_off, p_dsize, p_psize, p_ltag, p_lcount, p_farpad, p_faroff, p_farseg.
  repeat split; try (f_equal; lia); lia.
Qed.

(** reassembling a word from its fields *)
Lemma w_struct_of_fields p :
  p_kind p = 0 -> w_struct (p_off p) (p_dsize p) (p_psize p) = p mod 2 ^ 64.
Proof.
  unfold w_struct, p_kind, p_off, p_dsize, p_psize. intros.
  rewrite (to_signed_mod_eq 30) by lia. lia.
Qed.

Lemma w_list_of_fields p :
  p_kind p = 1 -> w_list (p_off p) (p_ltag p) (p_lcount p) = p mod 2 ^ 64.
Proof.
  unfold w_list, p_kind, p_off, p_ltag, p_lcount. intros.
  rewrite (to_signed_mod_eq 30) by lia. lia.
Qed.

Lemma w_far_of_fields p :
  p_kind p = 2 -> w_far (p_farpad p) (p_faroff p) (p_farseg p) = p mod 2 ^ 64.
Proof.
  unfold w_far, p_kind, p_farpad, p_faroff, p_farseg. intros. lia.
Qed.

(** ** the C macros *)

Lemma wrap64_mod x : wrap64 x mod 2 ^ 64 = x mod 2 ^ 64.
Proof. unfold wrap64. rewrite to_signed_mod_eq by lia. apply Z.mod_mod. lia. Qed.

Lemma wrap64_range x : - 2 ^ 63 <= wrap64 x < 2 ^ 63.
Proof. unfold wrap64. apply (to_signed_range 64); lia. Qed.

Lemma wrap64_small x : - 2 ^ 63 <= x < 2 ^ 63 -> wrap64 x = x.
Proof. intros. unfold wrap64. apply (to_signed_mod 64); lia. Qed.

Lemma wrap64_eq x y : x mod 2 ^ 64 = y mod 2 ^ 64 -> wrap64 x = wrap64 y.
Proof. unfold wrap64. intros ->. reflexivity. Qed.

Lemma C_offset_eq p : C_OFFSET p = offset p.
Proof.
  rewrite offset_spec. unfold C_OFFSET, C_CAST_AS_SIGNED, c_shr, c_shl, p_off.
  replace (Z.land (Z.shiftr p 2) 0x3fffffff) with ((p / 4) mod 2 ^ 30)
    by (rewrite Z.shiftr_div_pow2 by lia; symmetry; apply (land_mask _ 30); lia).
  set (x := (p / 4) mod 2 ^ 30).
  assert (Hx : 0 <= x < 2 ^ 30) by (unfold x; lia).
  clearbody x. change (64 - 30) with 34.
  rewrite Z.shiftl_mul_pow2, Z.shiftr_div_pow2 by lia.
  unfold wrap64, to_signed. change (2 ^ (64 - 1)) with (2 ^ 63).
  change (2 ^ (30 - 1)) with (2 ^ 29).
  rewrite Z.mod_small by lia.
  destruct (x * 2 ^ 34 <? 2 ^ 63) eqn:?, (x <? 2 ^ 29) eqn:?; lia.
Qed.

Lemma C_deref_eq p ofs :
  - 2 ^ 62 <= ofs < 2 ^ 62 -> C_DEREF p ofs = deref p ofs.
Proof.
  intros. unfold C_DEREF, deref, c_add, c_mul. rewrite C_offset_eq, offset_spec.
  pose proof (p_off_range p).
  rewrite (wrap64_small (p_off p + 1)), (wrap64_small ((p_off p + 1) * 8)) by lia.
  apply wrap64_small. lia.
Qed.

Lemma C_round_up_eq x :
  - 2 ^ 62 <= x < 2 ^ 62 -> C_ROUND_UP_TO_WORD x = round_up_to_word x.
Proof.
  intros. unfold C_ROUND_UP_TO_WORD, round_up_to_word, c_add.
  rewrite wrap64_small by lia. reflexivity.
Qed.

(** lor and land with wrapped operands *)
Lemma land_mod_pow2 a b n : 0 <= n -> Z.land a b mod 2 ^ n = Z.land (a mod 2 ^ n) (b mod 2 ^ n).
Proof.
  intros. rewrite <- !Z.land_ones by lia.
  apply Z.bits_inj'. intros i Hi. rewrite !Z.land_spec.
  destruct (Z.testbit a i), (Z.testbit b i), (Z.testbit (Z.ones n) i); reflexivity.
Qed.

Lemma lor_mod_pow2 a b n : 0 <= n -> Z.lor a b mod 2 ^ n = Z.lor (a mod 2 ^ n) (b mod 2 ^ n).
Proof.
  intros. rewrite <- !Z.land_ones by lia.
  apply Z.bits_inj'. intros i Hi. rewrite !Z.land_spec, !Z.lor_spec, !Z.land_spec.
  destruct (Z.testbit a i), (Z.testbit b i), (Z.testbit (Z.ones n) i); reflexivity.
Qed.

Lemma c_shl_mod x n : c_shl x n mod 2 ^ 64 = Z.shiftl x n mod 2 ^ 64.
Proof. apply wrap64_mod. Qed.

Ltac cmod :=
  repeat first
    [ rewrite (lor_mod_pow2 _ _ 64) by lia
    | rewrite (land_mod_pow2 _ _ 64) by lia
    | rewrite c_shl_mod ].

Lemma C_new_struct_eq off ds ps :
  C_NEW_STRUCT off ds ps mod 2 ^ 64 = new_struct off ds ps mod 2 ^ 64.
Proof.
  unfold C_NEW_STRUCT, new_struct, STRUCT. cbv zeta. rewrite Z.lor_0_l. cmod. reflexivity.
Qed.

Lemma C_new_list_eq off tag n :
  C_NEW_LIST off tag n mod 2 ^ 64 = new_list off tag n mod 2 ^ 64.
Proof.
  unfold C_NEW_LIST, new_list, LIST. cbv zeta. rewrite Z.lor_0_l. cmod. reflexivity.
Qed.

Lemma C_new_far_eq pad off sg :
  C_NEW_FAR pad off sg mod 2 ^ 64 = new_far pad off sg mod 2 ^ 64.
Proof.
  unfold C_NEW_FAR, new_far, FAR. cbv zeta. rewrite Z.lor_0_l. cmod. reflexivity.
Qed.

Lemma C_new_generic_eq k off ext :
  C_NEW_GENERIC k off ext mod 2 ^ 64 = new_generic k off ext mod 2 ^ 64.
Proof.
  unfold C_NEW_GENERIC, new_generic. rewrite Z.lor_0_l. cmod. reflexivity.
Qed.

Lemma lor_range a b :
  - 2 ^ 63 <= a < 2 ^ 63 -> - 2 ^ 63 <= b < 2 ^ 63 -> - 2 ^ 63 <= Z.lor a b < 2 ^ 63.
Proof.
  intros Ha Hb.
  assert (H : forall x, - 2 ^ 63 <= x < 2 ^ 63 <->
                        Z.shiftr x 63 = 0 \/ Z.shiftr x 63 = -1).
  { intros x. rewrite Z.shiftr_div_pow2 by lia. lia. }
  apply H. apply H in Ha. apply H in Hb. rewrite Z.shiftr_lor.
  destruct Ha as [-> | ->], Hb as [-> | ->]; cbn; auto.
Qed.

Lemma land_range a b :
  - 2 ^ 63 <= a < 2 ^ 63 -> 0 <= b < 2 ^ 63 -> - 2 ^ 63 <= Z.land a b < 2 ^ 63.
Proof.
  intros Ha Hb.
  assert (H : forall x, - 2 ^ 63 <= x < 2 ^ 63 <->
                        Z.shiftr x 63 = 0 \/ Z.shiftr x 63 = -1).
  { intros x. rewrite Z.shiftr_div_pow2 by lia. lia. }
  apply H. apply H in Ha. assert (Hb' : - 2 ^ 63 <= b < 2 ^ 63) by lia.
  apply H in Hb'. rewrite Z.shiftr_land.
  destruct Ha as [-> | ->], Hb' as [-> | ->]; cbn; auto.
Qed.

(** so the C constructors are the Python ones read as a signed long *)
Lemma C_new_struct_signed off ds ps :
  C_NEW_STRUCT off ds ps = wrap64 (new_struct off ds ps).
Proof.
  rewrite <- (wrap64_eq _ _ (C_new_struct_eq off ds ps)).
  symmetry. apply wrap64_small. unfold C_NEW_STRUCT.
  repeat apply lor_range; try apply land_range; try apply wrap64_range; lia.
Qed.

Lemma C_new_list_signed off tag n :
  C_NEW_LIST off tag n = wrap64 (new_list off tag n).
Proof.
  rewrite <- (wrap64_eq _ _ (C_new_list_eq off tag n)).
  symmetry. apply wrap64_small. unfold C_NEW_LIST.
  repeat apply lor_range; try apply land_range; try apply wrap64_range; lia.
Qed.

Lemma C_new_far_signed pad off sg :
  C_NEW_FAR pad off sg = wrap64 (new_far pad off sg).
Proof.
  rewrite <- (wrap64_eq _ _ (C_new_far_eq pad off sg)).
  symmetry. apply wrap64_small. unfold C_NEW_FAR.
  repeat apply lor_range; try apply land_range; try apply wrap64_range; lia.
Qed.

Lemma item_length_eq tag : 0 <= tag < 8 -> list_item_length tag = pyx_list_item_length tag.
Proof.
  intros. assert (H' : tag = 0 \/ tag = 1 \/ tag = 2 \/ tag = 3 \/ tag = 4 \/ tag = 5 \/ tag = 6 \/ tag = 7) by lia.
  repeat destruct H' as [-> | H']; try reflexivity. subst. reflexivity.
Qed.
