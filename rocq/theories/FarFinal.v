(** Far pointers: final lemmas for C15 and C16. *)
From Verif Require Import Base Spec BaseFacts Ptr PtrFacts Segment SegmentFacts EncFacts Builder Copy Endof Struct Message List Query
  StructFacts MessageFacts MsgFinal SegSpec SegFlat.
From Coq Require Import ZifyBool.
Ltac Zify.zify_post_hook ::= Z.div_mod_to_equations.

Lemma mem_of_multi segs : 2 <= blen segs -> mem_of segs = flat segs.
Proof.
  destruct segs as [|a [|b l]]; intros H; [reflexivity| |reflexivity].
  change (blen [a]) with 1 in H. lia.
Qed.

Lemma loads_multi segs pad p v :
  frameable segs -> pad_ok pad segs -> 2 <= blen segs ->
  seg_word segs 0 0 = Some p -> sden segs 0 p 0 v ->
  match v with
  | VNull => loads (frame_with pad segs) = Ok None
  | VStruct d vs => exists o, loads (frame_with pad segs) = Ok (Some o) /\ obj_den o d vs
  | _ => loads (frame_with pad segs) = Err AssertionError
  end.
Proof.
  intros F P N W D. rewrite loads_frame by assumption.
  apply (open_segments_value segs p v); rewrite mem_of_multi by exact N.
  - apply (seg_word_flat segs 0 0 p W).
  - apply (proj1 (sden_flat segs) 0 p 0 v D).
Qed.

Lemma far_rejected o k p :
  soffs (o_seg o) = None -> 0 <= k < o_ps o ->
  word_at (o_seg o) (o_ptrs o + 8 * k) = Some p -> p_kind p = 2 ->
  o_read_struct o (8 * k) = Err ValueError /\
  (forall t, o_read_list o (8 * k) t = Err ValueError) /\
  (forall dflt add, o_read_data o (8 * k) dflt add = Err ValueError).
Proof.
  intros S K W F.
  assert (R : o_resolve o (8 * k) = Err ValueError).
  { unfold o_resolve, o_read_fast_ptr, o_read_far_ptr.
    replace (o_ps o * 8 <=? 8 * k) with false by (symmetry; lia).
    rewrite (proj2 (read_ptr_word _ _ _) W). cbn [bind]. rewrite kind_spec, F.
    change (2 =? FAR) with true. cbn match. apply read_far_ptr_single. exact S. }
  unfold o_read_struct, o_read_list, o_read_data. rewrite R. auto.
Qed.

Lemma far_item_rejected l i p :
  soffs (l_seg l) = None -> 0 <= i < l_count l -> l_ioff l = 0 ->
  l_len l = 8 ->
  word_at (l_seg l) (l_off l + 8 * i) = Some p -> p_kind p = 2 ->
  (exists add, l_it l = ITText add) \/ (exists t, l_it l = ITList t) ->
  l_getitem l i = Err ValueError.
Proof.
  intros S K IO IL W F T. unfold l_getitem.
  replace (i <? 0) with false by (symmetry; lia).
  replace ((0 <=? i) && (i <? l_count l)) with true by (symmetry; lia).
  unfold read_item, offset_for_item. rewrite IO, IL.
  replace (l_off l + 0 + i * 8) with (l_off l + 8 * i) by lia.
  replace (l_off l + i * 8) with (l_off l + 8 * i) by lia.
  pose proof (proj2 (read_ptr_word _ _ _) W) as RP.
  destruct T as [[add ->]|[t ->]]; rewrite RP; cbn [bind]; rewrite kind_spec, F;
    change (2 =? FAR) with true; cbn match; rewrite read_far_ptr_single by exact S; reflexivity.
Qed.

Lemma far_copy_rejected s p pos dst dp fuel :
  soffs s = None -> p_kind p = 2 ->
  copy_pointer (S fuel) s p pos dst dp = Err ValueError.
Proof.
  intros S F. cbn [copy_pointer]. rewrite kind_spec, F.
  change (2 =? STRUCT) with false. change (2 =? LIST) with false. change (2 =? FAR) with true.
  cbn match. rewrite read_far_ptr_single by exact S. reflexivity.
Qed.

Lemma read_far_ptr_flat segs k i p k' i' q :
  seg_word segs k i = Some p -> sfar segs p k' i' q ->
  read_far_ptr (flat segs) (prefix_sum segs (Z.to_nat k) + i)
  = Ok (prefix_sum segs (Z.to_nat k') + i', q).
Proof.
  intros W F. apply (read_far_ptr_spec (flat segs) _ p).
  - apply (seg_word_flat _ _ _ _ W).
  - apply (sfar_flat _ _ _ _ _ F).
Qed.
