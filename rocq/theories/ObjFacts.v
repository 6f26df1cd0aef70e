(** Copying, compacting, dumping whole objects. *)
From Verif Require Import Base Spec BaseFacts Ptr PtrFacts Segment SegmentFacts Builder Copy Endof Enc EncFacts
  EncDen CopyFacts EndofFacts Struct Message List Query StructFacts MessageFacts MsgFinal.
From Coq Require Import ZifyBool ZifyNat.
Ltac Zify.zify_post_hook ::= Z.div_mod_to_equations.

(** Objects in a word-aligned buffer of at most 4 GB. *)
Definition aligned (o : obj) : Prop :=
  o_off o mod 8 = 0 /\ slen (o_seg o) mod 8 = 0 /\ slen (o_seg o) <= 2 ^ 32.

Lemma obj_wf o d vs : obj_den o d vs -> wfv (VStruct d vs).
Proof.
  intros (E & Hd & Hp & B & D). apply vall_struct. split.
  - cbn [wf1]. apply bytes_at_some in B. apply den_ptrs_len in D. unfold blen in *. lia.
  - apply (proj1 (proj2 (den_wf_all _)) _ _ _ D).
Qed.

Lemma obj_sizes o d vs : obj_den o d vs -> blen d = 8 * o_ds o /\ blen vs = o_ps o.
Proof.
  intros (E & Hd & Hp & B & D). apply bytes_at_some in B. apply den_ptrs_len in D. unfold blen in *. lia.
Qed.

(** A struct body encoded at [base] *)
Lemma enc_obj d vs s base :
  wfv (VStruct d vs) -> 0 <= base -> blen (content (VStruct d vs)) <= 2 ^ 32 ->
  at_ s base (content (VStruct d vs)) ->
  obj_den {| o_seg := s; o_off := base; o_ptrs := base + 8 * (blen d / 8);
             o_ds := blen d / 8; o_ps := blen vs |} d vs.
Proof.
  intros Hwf Hb Hlen Hat. pose proof Hwf as Hwf0.
  apply (proj1 (vall_struct _ _ _)) in Hwf. destruct Hwf as [(Hw1 & Hw2 & Hw3) Hw4].
  rewrite content_struct in *. rewrite !blen_app, blen_ptr_words, blen_vcs_of in Hlen.
  apply at_app in Hat. destruct Hat as [Ha1 Ha2].
  apply at_app in Ha2. destruct Ha2 as [Ha2 Ha3].
  rewrite blen_ptr_words, blen_vcs_of in Ha3. nonneg.
  pose proof (blen_nonneg d). pose proof (blen_nonneg vs).
  split; [reflexivity|]. cbn [o_ds o_ps o_off o_seg]. split; [lia|]. split; [lia|].
  replace (8 * (blen d / 8)) with (blen d) by lia.
  split; [apply at_bytes; [exact Ha1|reflexivity]|].
  unfold blen at 2. rewrite Nat2Z.id.
  apply (enc_ptrs vs) with (base := base + blen d + 8 * blen vs) (off := blen vs - 1); try assumption; try lia.
  rewrite Forall_forall in *. intros x Hx. apply enc_den. apply Hw4. exact Hx.
Qed.

(** ** C17/C18 *)
Lemma at_tail a b s : sbuf s = a ++ b -> at_ s (blen a) b.
Proof.
  intros E. unfold at_, slen. rewrite E, blen_app. pose proof (blen_nonneg a). repeat split; try lia.
  unfold sub, blen. rewrite !Nat2Z.id, skipn_app, skipn_all, Nat.sub_diag. cbn [skipn app]. apply firstn_all.
Qed.

Lemma copy_pointer_value s p pos v dst dp fuel :
  den s p pos v -> p <> 0 -> (p_kind p = 2 -> word_at s pos = Some p) -> limv v ->
  0 <= dp -> dp mod 8 = 0 -> dp + 8 <= blen dst -> blen dst mod 8 = 0 ->
  blen dst + blen (content v) <= 2 ^ 32 ->
  (2 * vdepth v <= fuel)%nat ->
  exists dst' p',
    copy_pointer fuel s p pos dst dp = Ok dst' /\
    word_at {| sbuf := dst'; soffs := None |} dp = Some p' /\
    den {| sbuf := dst'; soffs := None |} p' dp v /\
    blen dst <= blen dst' /\
    (forall i, 0 <= i < blen dst -> i < dp \/ dp + 8 <= i -> getb dst' i = getb dst i).
Proof.
  intros D N F L Hdp Ha Hb Hm Hlen Hf.
  pose proof (proj1 (copy_all s) p pos v D N F L fuel ltac:(destruct (p_kind p =? 2); lia)
                dst dp Hdp Ha Hb Hm Hlen) as C.
  set (w := ptr_word v ((blen dst - dp - 8) / 8)) in *.
  set (dst' := upd dst dp (le_enc 8 w) ++ content v) in *.
  exists dst', (to_signed 64 (w mod 2 ^ 64)). split; [exact C|].
  pose proof (blen_nonneg (content v)) as NC.
  assert (BU : blen (upd dst dp (le_enc 8 w)) = blen dst) by (apply blen_upd; rewrite ?blen_le_enc; lia).
  assert (W : at_ {| sbuf := dst'; soffs := None |} dp (le_enc 8 w)).
  { unfold at_, slen. cbn [sbuf]. subst dst'. rewrite blen_app, BU, blen_le_enc. split; [lia|]. split; [lia|].
    rewrite sub_app1 by (rewrite ?BU; lia).
    change (Z.of_nat 8) with (blen (le_enc 8 w)) at 1. apply sub_upd_same; rewrite ?blen_le_enc; lia. }
  split; [apply at_word; exact W|]. split; [|split].
  - apply (enc_den v (den_wf _ _ _ _ D) _ _ dp (blen dst) ((blen dst - dp - 8) / 8)).
    + apply reads_signed.
    + lia.
    + lia.
    + destruct W as (W1 & W2 & _). rewrite blen_le_enc in W2. lia.
    + lia.
    + rewrite <- BU. apply at_tail. reflexivity.
  - subst dst'. rewrite blen_app, BU. lia.
  - intros i Hi Ho. subst dst'. rewrite getb_app by (rewrite ?BU; lia).
    rewrite BU. replace (i <? blen dst) with true by (symmetry; lia).
    rewrite getb_upd by (rewrite ?blen_le_enc; lia). rewrite blen_le_enc.
    replace ((dp <=? i) && (i <? dp + Z.of_nat 8)) with false by (symmetry; lia). reflexivity.
Qed.

(** ** copy_from_struct *)
Lemma as_pointer_den o d vs :
  obj_den o d vs -> aligned o -> o_ds o + o_ps o <> 0 ->
  den (o_seg o) (as_pointer o 0) 0 (VStruct d vs) /\ as_pointer o 0 <> 0 /\ p_kind (as_pointer o 0) = 0.
Proof.
  intros O A NE. pose proof O as (E & Hd & Hp & B & D). destruct A as (A1 & A2 & A3).
  pose proof (bytes_at_some _ _ _ _ B) as (B1 & B2 & B3 & _).
  pose proof (den_ptrs_bounds _ _ _ _ D) as (P1 & P2).
  unfold as_pointer. rewrite new_struct_spec by lia.
  set (off := (o_off o - 0 - 8) / 8).
  assert (Hoff : - 2 ^ 29 <= off < 2 ^ 29) by (subst off; lia).
  assert (NZ : w_struct off (o_ds o) (o_ps o) <> 0) by (unfold w_struct; lia).
  assert (T : p_target (w_struct off (o_ds o) (o_ps o)) 0 = o_off o).
  { unfold p_target. rewrite w_struct_off by lia. subst off. lia. }
  split; [|split; [exact NZ|apply w_struct_kind]].
  apply den_struct; [exact NZ|apply w_struct_kind| |]; rewrite T, w_struct_dsize by lia.
  - exact B.
  - rewrite w_struct_psize by lia. exact D.
Qed.

Lemma copy_from_struct_spec o d vs dst dp fuel :
  obj_den o d vs -> aligned o -> limv (VStruct d vs) ->
  0 <= dp -> dp mod 8 = 0 -> dp + 8 <= blen dst -> blen dst mod 8 = 0 ->
  blen dst + blen (content (VStruct d vs)) <= 2 ^ 32 ->
  (2 * vdepth (VStruct d vs) <= fuel)%nat ->
  copy_from_struct fuel dst dp (Some o) =
  Ok (upd dst dp (le_enc 8 (ptr_word (VStruct d vs) ((blen dst - dp - 8) / 8))) ++ content (VStruct d vs)).
Proof.
  intros O A L Hdp Ha Hb Hm Hlen Hf. cbn [copy_from_struct].
  destruct (obj_sizes _ _ _ O) as [S1 S2]. pose proof O as (_ & Hd & Hp & _ & _).
  destruct (Z.eq_dec (o_ds o + o_ps o) 0) as [E0|NE].
  - (* empty struct: nothing is allocated *)
    assert (o_ds o = 0 /\ o_ps o = 0) as [E1 E2] by lia.
    assert (d = []) by (apply blen_0_nil; lia). assert (vs = []) by (apply blen_0_nil; lia). subst d vs.
    destruct fuel as [|fuel]; [cbn in Hf; lia|]. cbn [copy_pointer].
    unfold as_pointer. rewrite E1, E2. rewrite kind_spec, new_struct_spec, w_struct_kind by lia.
    cbn [Z.eqb STRUCT]. unfold copy_struct.
    rewrite data_size_spec, ptrs_size_spec, w_struct_dsize, w_struct_psize by lia.
    change (0 + 0 =? 0) with true. cbn match.
    rewrite new_struct_spec by lia. rewrite write_int64_in; [|unfold w_struct; lia|lia|lia].
    change (content (VStruct [] [])) with (@nil byte). rewrite app_nil_r. reflexivity.
  - destruct (as_pointer_den o d vs O A NE) as (D & N & K).
    apply (proj1 (copy_all (o_seg o)) _ _ _ D N); try assumption; try congruence.
    rewrite K. cbn [Z.eqb]. lia.
Qed.

(** ** compact *)
Lemma compact_spec o d vs fuel :
  obj_den o d vs -> aligned o -> limv (VStruct d vs) ->
  8 + blen (content (VStruct d vs)) <= 2 ^ 32 ->
  (2 * vdepth (VStruct d vs) <= fuel)%nat ->
  o_compact fuel o =
  Ok {| o_seg := {| sbuf := le_enc 8 (ptr_word (VStruct d vs) 0) ++ content (VStruct d vs); soffs := None |};
        o_off := 8; o_ptrs := 8 + blen d; o_ds := blen d / 8; o_ps := blen vs |}.
Proof.
  intros O A L Hlen Hf. unfold o_compact, allocate. cbn [app].
  change (blen (@nil byte)) with 0.
  rewrite (copy_from_struct_spec o d vs (zeros 8) 0 fuel O A L);
    change (blen (zeros 8)) with 8; try lia.
  cbn [bind]. change (blen (zeros 8)) with 8. change ((8 - 0 - 8) / 8) with 0.
  assert (U : forall w, upd (zeros 8) 0 (le_enc 8 w) = le_enc 8 w).
  { intros w. unfold upd. rewrite skipn_all2; [apply app_nil_r|].
    pose proof (blen_le_enc 8 w) as B8. unfold blen in *. cbn [length zeros] in *. change (length (zeros 8)) with 8%nat. lia. }
  rewrite U. destruct (obj_sizes _ _ _ O) as [S1 S2].
  assert (BC : 8 * o_ds o + 8 * o_ps o <= blen (content (VStruct d vs))).
  { rewrite content_struct, !blen_app, blen_ptr_words, blen_vcs_of. nonneg. lia. }
  pose proof O as (_ & Hd & Hp & _ & _).
  unfold init_from_buffer. cbn [sbuf o_off o_ptrs]. rewrite blen_app, blen_le_enc.
  replace (8 + o_ds o * 8 <=? Z.of_nat 8 + blen (content (VStruct d vs))) with true by (symmetry; lia).
  replace (8 + o_ds o * 8 + o_ps o * 8 <=? Z.of_nat 8 + blen (content (VStruct d vs))) with true by (symmetry; lia).
  cbn [py_assert bind]. rewrite S1, S2.
  replace (o_ds o * 8) with (8 * o_ds o) by lia. replace (8 * o_ds o / 8) with (o_ds o) by lia. reflexivity.
Qed.

Lemma compact_den o d vs fuel :
  obj_den o d vs -> aligned o -> limv (VStruct d vs) ->
  8 + blen (content (VStruct d vs)) <= 2 ^ 32 ->
  (2 * vdepth (VStruct d vs) <= fuel)%nat ->
  exists o', o_compact fuel o = Ok o' /\ obj_den o' d vs /\ aligned o' /\
    o_ds o' = o_ds o /\ o_ps o' = o_ps o /\ o_off o' = 8 /\
    o_seg o' = {| sbuf := le_enc 8 (ptr_word (VStruct d vs) 0) ++ content (VStruct d vs); soffs := None |}.
Proof.
  intros O A L Hlen Hf. eexists. split; [apply compact_spec; eassumption|].
  destruct (obj_sizes _ _ _ O) as [S1 S2]. pose proof (obj_wf _ _ _ O) as W.
  pose proof W as W'. apply (proj1 (vall_struct _ _ _)) in W'. destruct W' as [(W1 & W2 & W3) _].
  cbn [o_ds o_ps o_off o_seg]. pose proof (blen_nonneg (content (VStruct d vs))) as NN.
  split; [|split; [|repeat split; lia]].
  - replace (8 + blen d) with (8 + 8 * (blen d / 8)) by lia. apply enc_obj; [exact W|lia|lia|].
    apply (at_tail (le_enc 8 (ptr_word (VStruct d vs) 0)) (content (VStruct d vs))). reflexivity.
  - unfold aligned, slen. cbn [o_off o_seg sbuf]. rewrite blen_app, blen_le_enc.
    pose proof (content_mod _ W). lia.
Qed.
