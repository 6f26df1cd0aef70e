(** Final forms of the pointer and primitive lemmas (used by Properties_Ptr.v). *)
From Verif Require Import Base Spec BaseFacts Ptr PtrFacts Segment Builder SegmentFacts.
From Coq Require Import ZifyBool.
Ltac Zify.zify_post_hook ::= Z.div_mod_to_equations.

Lemma f_new_struct off ds ps :
  - 2 ^ 29 <= off < 2 ^ 29 -> 0 <= ds < 2 ^ 16 -> 0 <= ps < 2 ^ 16 ->
  let p := new_struct off ds ps in
  0 <= p < 2 ^ 64 /\ kind p = STRUCT /\ offset p = off /\
  struct_data_size p = ds /\ struct_ptrs_size p = ps /\
  forall pos, deref p pos = pos + 8 + 8 * off.
Proof.
  intros Ho Hd Hp p. subst p. rewrite new_struct_spec by lia.
  assert (O : p_off (w_struct off ds ps) = off).
  { unfold p_off, w_struct. rewrite <- (p_off_of off) at 2 by lia. f_equal. lia. }
  repeat split.
  - unfold w_struct; lia.
  - unfold w_struct; lia.
  - rewrite kind_spec. unfold p_kind, w_struct, STRUCT. lia.
  - rewrite offset_spec. exact O.
  - rewrite data_size_spec. unfold p_dsize, w_struct. lia.
  - rewrite ptrs_size_spec. unfold p_psize, w_struct. lia.
  - intros pos. rewrite deref_spec. unfold p_target. rewrite O. lia.
Qed.

Lemma f_new_list off tag n :
  - 2 ^ 29 <= off < 2 ^ 29 -> 0 <= tag < 8 -> 0 <= n < 2 ^ 29 ->
  let p := new_list off tag n in
  0 <= p < 2 ^ 64 /\ kind p = LIST /\ offset p = off /\
  list_size_tag p = tag /\ list_item_count p = n /\
  forall pos, deref p pos = pos + 8 + 8 * off.
Proof.
  intros Ho Hd Hp p. subst p. rewrite new_list_spec by lia.
  assert (O : p_off (w_list off tag n) = off).
  { unfold p_off, w_list. rewrite <- (p_off_of off) at 2 by lia. f_equal. lia. }
  repeat split.
  - unfold w_list; lia.
  - unfold w_list; lia.
  - rewrite kind_spec. unfold p_kind, w_list, LIST. lia.
  - rewrite offset_spec. exact O.
  - rewrite size_tag_spec. unfold p_ltag, w_list. lia.
  - rewrite item_count_spec. unfold p_lcount, w_list. lia.
  - intros pos. rewrite deref_spec. unfold p_target. rewrite O. lia.
Qed.

Lemma f_new_far pad off sg :
  0 <= pad < 2 -> 0 <= off < 2 ^ 29 -> 0 <= sg < 2 ^ 32 ->
  let p := new_far pad off sg in
  0 <= p < 2 ^ 64 /\ kind p = FAR /\ far_landing_pad p = pad /\
  far_offset p = off /\ far_target p = sg.
Proof.
  intros Ho Hd Hp p. subst p. rewrite new_far_spec by lia.
  repeat split.
  - unfold w_far; lia.
  - unfold w_far; lia.
  - rewrite kind_spec. unfold p_kind, w_far, FAR. lia.
  - rewrite far_pad_spec. unfold p_farpad, w_far. lia.
  - rewrite far_offset_spec. unfold p_faroff, w_far. lia.
  - rewrite far_target_spec. unfold p_farseg, w_far. lia.
Qed.

Lemma f_decode p :
  let u := p mod 2 ^ 64 in
  kind p = u mod 4 /\
  offset p = to_signed 30 ((u / 4) mod 2 ^ 30) /\
  struct_data_size p = (u / 2 ^ 32) mod 2 ^ 16 /\ struct_ptrs_size p = u / 2 ^ 48 /\
  list_size_tag p = (u / 2 ^ 32) mod 8 /\ list_item_count p = u / 2 ^ 35 /\
  far_landing_pad p = (u / 4) mod 2 /\ far_offset p = (u / 8) mod 2 ^ 29 /\
  far_target p = u / 2 ^ 32 /\
  forall pos, deref p pos = pos + 8 + 8 * offset p.
Proof.
  rewrite kind_spec, offset_spec, data_size_spec, ptrs_size_spec, size_tag_spec,
    item_count_spec, far_pad_spec, far_offset_spec, far_target_spec.
  destruct (p_fields_mod p) as (A & B & C & D & E & F & G & H & I).
  assert (DD : forall pos, deref p pos = pos + 8 + 8 * p_off p)
    by (intros; rewrite deref_spec; reflexivity).
  rewrite <- A, <- B, <- C, <- D, <- E, <- F, <- G, <- H, <- I.
  rewrite <- B in DD.
  assert (U : 0 <= p mod 2 ^ 64 < 2 ^ 64) by lia.
  intros u. change (p mod 2 ^ 64) with u in U.
  repeat split; try exact DD; subst u; generalize dependent (p mod 2 ^ 64); intros u _ _ _ _ _ _ _ _ _ _ U;
  unfold p_kind, p_off, p_dsize, p_psize, p_ltag, p_lcount, p_farpad, p_faroff, p_farseg;
  try reflexivity; lia.
Qed.

Lemma f_decode_range p :
  0 <= kind p < 4 /\ - 2 ^ 29 <= offset p < 2 ^ 29 /\
  0 <= struct_data_size p < 2 ^ 16 /\ 0 <= struct_ptrs_size p < 2 ^ 16 /\
  0 <= list_size_tag p < 8 /\ 0 <= list_item_count p < 2 ^ 29 /\
  0 <= far_landing_pad p < 2 /\ 0 <= far_offset p < 2 ^ 29 /\ 0 <= far_target p < 2 ^ 32.
Proof.
  rewrite kind_spec, offset_spec, data_size_spec, ptrs_size_spec, size_tag_spec,
    item_count_spec, far_pad_spec, far_offset_spec, far_target_spec.
  pose proof (p_kind_range p); pose proof (p_off_range p); pose proof (p_dsize_range p);
  pose proof (p_psize_range p); pose proof (p_ltag_range p); pose proof (p_lcount_range p);
  pose proof (p_farpad_range p); pose proof (p_faroff_range p); pose proof (p_farseg_range p).
  repeat (split; [assumption|]); assumption.
Qed.

Lemma f_rebuild p :
  (kind p = STRUCT -> new_struct (offset p) (struct_data_size p) (struct_ptrs_size p) = p mod 2 ^ 64) /\
  (kind p = LIST -> new_list (offset p) (list_size_tag p) (list_item_count p) = p mod 2 ^ 64) /\
  (kind p = FAR -> new_far (far_landing_pad p) (far_offset p) (far_target p) = p mod 2 ^ 64).
Proof.
  rewrite kind_spec, offset_spec, data_size_spec, ptrs_size_spec, size_tag_spec,
    item_count_spec, far_pad_spec, far_offset_spec, far_target_spec.
  pose proof (p_dsize_range p); pose proof (p_ltag_range p);
  pose proof (p_farpad_range p); pose proof (p_faroff_range p).
  repeat split; intros K.
  - rewrite new_struct_spec by lia. apply w_struct_of_fields; exact K.
  - rewrite new_list_spec by lia. apply w_list_of_fields; exact K.
  - rewrite new_far_spec by lia. apply w_far_of_fields; exact K.
Qed.

Lemma f_c_readers p :
  C_KIND p = kind p /\ C_OFFSET p = offset p /\ C_EXTRA p = extra p /\
  C_STRUCT_DATA_SIZE p = struct_data_size p /\ C_STRUCT_PTRS_SIZE p = struct_ptrs_size p /\
  C_LIST_SIZE_TAG p = list_size_tag p /\ C_LIST_ITEM_COUNT p = list_item_count p /\
  C_FAR_LANDING_PAD p = far_landing_pad p /\ C_FAR_OFFSET p = far_offset p /\
  C_FAR_TARGET p = far_target p.
Proof. repeat split; try reflexivity. apply C_offset_eq. Qed.

Lemma f_c_arith p x :
  - 2 ^ 62 <= x < 2 ^ 62 ->
  C_DEREF p x = deref p x /\ C_ROUND_UP_TO_WORD x = round_up_to_word x /\
  round_up_to_word x mod 8 = 0 /\ x <= round_up_to_word x < x + 8.
Proof.
  intros H. split; [apply C_deref_eq; exact H|]. split; [apply C_round_up_eq; exact H|].
  rewrite round_up_spec. lia.
Qed.

Lemma f_c_builders a b c k :
  0 <= k < 4 ->
  C_NEW_STRUCT a b c = wrap64 (new_struct a b c) /\
  C_NEW_LIST a b c = wrap64 (new_list a b c) /\
  C_NEW_FAR a b c = wrap64 (new_far a b c) /\
  C_NEW_GENERIC k a b mod 2 ^ 64 = new_generic k a b mod 2 ^ 64.
Proof.
  intros. split; [apply C_new_struct_signed|]. split; [apply C_new_list_signed|].
  split; [apply C_new_far_signed|]. apply C_new_generic_eq.
Qed.

Lemma f_write_read f buf i v :
  fmin f <= v <= fmax f -> 0 <= i -> i + fsize f <= blen buf ->
  exists buf',
    b_write f buf i v = Ok buf' /\
    blen buf' = blen buf /\
    (forall offs, read_primitive (mkseg buf' offs) i f = Ok v) /\
    (forall k, 0 <= k < blen buf -> ~ (i <= k < i + fsize f) -> getb buf' k = getb buf k).
Proof.
  intros R H1 H2. exists (upd buf i (fenc f v)).
  pose proof (fsize_pos f).
  split; [apply pack_into_in; auto|]. split; [apply blen_upd; rewrite ?blen_fenc; lia|]. split.
  - intros offs. rewrite read_primitive_in; unfold slen; cbn [sbuf].
    + rewrite <- (blen_fenc f v) at 1. rewrite sub_upd_same by (rewrite ?blen_fenc; lia).
      rewrite fdec_fenc by exact R. reflexivity.
    + lia.
    + rewrite blen_upd; rewrite ?blen_fenc; lia.
  - intros k Hk Hn. rewrite getb_upd by (rewrite ?blen_fenc; lia). rewrite blen_fenc.
    destruct ((i <=? k) && (k <? i + fsize f)) eqn:E; [lia|reflexivity].
Qed.

Lemma f_write_reject f buf i v :
  ~ (fmin f <= v <= fmax f) -> b_write f buf i v = Err StructError.
Proof.
  intros R. unfold b_write, pack_into.
  destruct (in_fmtb f v) eqn:E; [|reflexivity]. apply in_fmtb_iff in E. contradiction.
Qed.

Lemma f_read_total s i f :
  (0 <= i /\ i + fsize f <= slen s ->
     exists v, read_primitive s i f = Ok v /\ fmin f <= v <= fmax f /\
       v mod 2 ^ (8 * fsize f) = le_dec (sub (sbuf s) i (fsize f))) /\
  (~ (0 <= i /\ i + fsize f <= slen s) -> read_primitive s i f = Err IndexError).
Proof.
  split.
  - intros [H1 H2]. eexists. split; [apply read_primitive_in; lia|].
    pose proof (fsize_pos f).
    assert (L : blen (sub (sbuf s) i (fsize f)) = fsize f) by (apply blen_sub; unfold slen in *; lia).
    split; [apply fdec_range; exact L|].
    pose proof (le_dec_range (sub (sbuf s) i (fsize f))) as R. rewrite L in R.
    replace (256 ^ fsize f) with (2 ^ (8 * fsize f)) in R
      by (rewrite Z.pow_mul_r by lia; reflexivity).
    unfold fdec. destruct (fsigned f).
    + rewrite to_signed_mod_eq by lia. apply Z.mod_small. lia.
    + apply Z.mod_small. lia.
  - apply read_primitive_out.
Qed.
