(** Final lemmas for C17-C25 and C46, with the counterexamples. *)
From Verif Require Import Base Spec BaseFacts Ptr PtrFacts Segment SegmentFacts Builder Copy Endof Enc EncFacts
  EncDen CopyFacts EndofFacts EndofTotal Struct Message List Query StructFacts MessageFacts MsgFinal SegSpec FarFinal
  ObjFacts DumpFacts AlignFacts CopyFrame Samples.
From Coq Require Import ZifyBool ZifyNat.
Ltac Zify.zify_post_hook ::= Z.div_mod_to_equations.

Lemma copy_terminates s p pos v dst dp :
  den s p pos v -> p <> 0 -> (p_kind p = 2 -> word_at s pos = Some p) -> limv v ->
  0 <= dp -> dp mod 8 = 0 -> dp + 8 <= blen dst -> blen dst mod 8 = 0 ->
  blen dst + blen (content v) <= 2 ^ 32 ->
  exists dst', forall fuel, (2 * vdepth v <= fuel)%nat -> copy_pointer fuel s p pos dst dp = Ok dst'.
Proof.
  intros D N F L Hdp Ha Hb Hm Hlen. eexists. intros fuel Hf.
  apply (proj1 (copy_all s) p pos v D N F L fuel); try assumption. destruct (p_kind p =? 2); lia.
Qed.

(** ** compact() twice, or from two layouts *)
Lemma compact_canonical o1 o2 d vs f1 f2 :
  obj_den o1 d vs -> obj_den o2 d vs -> aligned o1 -> aligned o2 -> limv (VStruct d vs) ->
  8 + blen (content (VStruct d vs)) <= 2 ^ 32 ->
  (2 * vdepth (VStruct d vs) <= f1)%nat -> (2 * vdepth (VStruct d vs) <= f2)%nat ->
  exists o', o_compact f1 o1 = Ok o' /\ o_compact f2 o2 = Ok o'.
Proof.
  intros. eexists. split; [apply (compact_spec o1 d vs)|apply (compact_spec o2 d vs)]; assumption.
Qed.

Lemma compact_idem o d vs fuel :
  obj_den o d vs -> aligned o -> limv (VStruct d vs) ->
  8 + blen (content (VStruct d vs)) <= 2 ^ 32 ->
  (2 * vdepth (VStruct d vs) <= fuel)%nat ->
  exists o', o_compact fuel o = Ok o' /\ o_compact fuel o' = Ok o'.
Proof.
  intros O A L Hl Hf. destruct (compact_den o d vs fuel O A L Hl Hf) as (o' & C & O' & A' & _).
  exists o'. split; [exact C|]. rewrite (compact_spec o' d vs fuel) by assumption.
  rewrite <- C. symmetry. apply compact_spec; assumption.
Qed.

(** ** C20 *)
Lemma compact_is_compact o d vs fuel :
  obj_den o d vs -> aligned o -> limv (VStruct d vs) -> Forall packed vs ->
  8 + blen (content (VStruct d vs)) <= 2 ^ 32 ->
  (2 * vdepth (VStruct d vs) <= fuel)%nat ->
  exists o', o_compact fuel o = Ok o' /\ obj_den o' d vs /\ o_is_compact fuel o' = Ok true /\
             o_get_end fuel o' = Ok (slen (o_seg o')).
Proof.
  intros O A L P Hl Hf.
  destruct (compact_den o d vs fuel O A L Hl Hf) as (o' & C & O' & A' & E1 & E2 & E3 & E4).
  exists o'. split; [exact C|]. split; [exact O'|].
  assert (G : o_get_end fuel o' = Ok (slen (o_seg o'))).
  { destruct fuel as [|fuel]; [cbn in Hf; lia|]. rewrite (get_end_eq o' d vs fuel O').
    pose proof (obj_wf _ _ _ O) as W. apply (proj1 (vall_struct _ _ _)) in W. destruct W as [(W1 & W2 & W3) W4].
    destruct (obj_sizes _ _ _ O') as [S1 S2].
    assert (AT : at_ (o_seg o') 8 (content (VStruct d vs))).
    { rewrite E4. apply (at_tail (le_enc 8 (ptr_word (VStruct d vs) 0)) (content (VStruct d vs))). reflexivity. }
    pose proof (endof_body_enc d vs (o_seg o') 8 fuel) as EB. unfold endof_struct in EB.
    rewrite E3. rewrite <- S2.
    replace (8 + 8 * o_ds o') with (8 + blen d / 8 * 8) by lia.
    replace (8 + blen d / 8 * 8 + 8 * blen vs) with (8 + blen d / 8 * 8 + blen vs * 8) by lia.
    rewrite EB; try assumption; try lia.
    - f_equal. rewrite E4. unfold slen. cbn [sbuf]. rewrite blen_app, blen_le_enc. reflexivity.
    - rewrite Forall_forall in *. intros x Hx. apply endof_enc; [apply W4, Hx|apply P, Hx].
    - cbn [vdepth] in Hf. lia. }
  split; [|exact G]. unfold o_is_compact. rewrite G. cbn [bind]. f_equal.
  pose proof (blen_nonneg (sbuf (o_seg o'))). unfold slen. lia.
Qed.

(** an empty struct as a child: its pointer has offset -1, which the
    compactness test takes for a gap *)
Definition empty_child : bytes := le_enc 8 (w_struct 0 0 1) ++ le_enc 8 (w_struct (-1) 0 0).
Lemma compact_not_compact :
  exists m o o', loads m = Ok (Some o) /\ o_compact 10 o = Ok o' /\ o_is_compact 10 o' = Ok false.
Proof.
  exists (frame [empty_child]).
  assert (E : exists o, loads (frame [empty_child]) = Ok (Some o) /\
    exists o', o_compact 10 o = Ok o' /\ o_is_compact 10 o' = Ok false).
  { eexists. split; [vm_compute; reflexivity|]. eexists. split; [vm_compute; reflexivity|]. vm_compute. reflexivity. }
  destruct E as (o & E1 & o' & E2 & E3). exists o, o'. auto.
Qed.

(** ** C23: an empty root struct *)
Lemma empty_root_lost :
  exists m o m', loads m = Ok (Some o) /\ dumps 10 o true = Ok m' /\ loads m' = Ok None.
Proof.
  exists (frame [le_enc 8 (w_struct (-1) 0 0)]). eexists _, _.
  split; [vm_compute; reflexivity|]. split; [vm_compute; reflexivity|]. vm_compute. reflexivity.
Qed.

(** C23/C22: a struct list whose list pointer announces more words than its
    items take (legal on the wire): the fast path cuts the extra words off,
    the dumped message can be loaded but not copied any more *)
Definition slack_msg : bytes :=
  le_enc 8 (w_struct 0 0 1) ++ le_enc 8 (w_list 0 7 2) ++ le_enc 8 (w_struct 1 1 0) ++ le_enc 8 5 ++ le_enc 8 0.
Definition slack2_msg : bytes :=
  le_enc 8 (w_struct 0 0 2) ++ le_enc 8 (w_list 1 7 2) ++ le_enc 8 (w_list 3 2 3) ++ le_enc 8 (w_struct 1 1 0) ++ le_enc 8 5 ++ le_enc 8 0 ++ le_enc 8 9.
Lemma slack_not_compact :
  exists m o o', loads m = Ok (Some o) /\ o_compact 10 o = Ok o' /\ o_is_compact 10 o' = Ok false.
Proof.
  exists (frame [slack2_msg]).
  assert (E : exists o, loads (frame [slack2_msg]) = Ok (Some o) /\
    exists o', o_compact 10 o = Ok o' /\ o_is_compact 10 o' = Ok false).
  { eexists. split; [vm_compute; reflexivity|]. eexists. split; [vm_compute; reflexivity|]. vm_compute. reflexivity. }
  destruct E as (o & E1 & o' & E2 & E3). exists o, o'. auto.
Qed.
Lemma slack_lost :
  exists o m' o',
    loads (frame [slack_msg]) = Ok (Some o) /\
    obj_den o [] [VComp 1 0 [(le_enc 8 5, [])] (zeros 8)] /\
    dumps 10 o true = Ok m' /\ loads m' = Ok (Some o') /\
    is_ok (o_compact 10 o) = true /\ o_compact 10 o' = Err IndexError.
Proof.
  eexists _, _, _. split; [vm_compute; reflexivity|]. split.
  - repeat split; try (vm_compute; congruence).
    cbn [o_ps]. replace (Z.to_nat 1) with 1%nat by reflexivity.
    eapply dp_cons; [vm_compute; reflexivity| |constructor; split; vm_compute; discriminate].
    eapply (den_clist _ _ _ (to_signed 64 (w_struct 1 1 0)) [(le_enc 8 5, [])] (zeros 8));
      [reflexivity|reflexivity|vm_compute; reflexivity|reflexivity|vm_compute; discriminate| |vm_compute; reflexivity].
    match goal with |- den_items ?s ?p ?a ?b ?n _ =>
      let p' := eval vm_compute in p in let a' := eval vm_compute in a in let b' := eval vm_compute in b in
      let n' := eval vm_compute in n in
      change (den_items s p' a' b' n' [(le_enc 8 5, [])]) end.
    apply di_cons; [vm_compute; reflexivity| |constructor].
    constructor. split; vm_compute; discriminate.
  - split; [vm_compute; reflexivity|]. split; [vm_compute; reflexivity|]. split; vm_compute; reflexivity.
Qed.

(** C17: the pure-Python builder refuses lists of 2^28 items or more *)
Definition big_void : seg := {| sbuf := le_enc 8 (w_list 0 0 (2 ^ 28)); soffs := None |}.
Lemma big_list_refused :
  exists p, word_at big_void 0 = Some p /\ den big_void p 0 (VList 0 (2 ^ 28) []) /\
    copy_pointer 10 big_void p 0 (zeros 8) 0 = Err StructError.
Proof.
  eexists. split; [vm_compute; reflexivity|]. split; [|vm_compute; reflexivity].
  change (VList 0 (2 ^ 28) []) with (VList (p_ltag (-9223372036854775807)) (p_lcount (-9223372036854775807)) []).
  apply (den_list big_void _ 0 []); [reflexivity|vm_compute; discriminate|vm_compute; reflexivity].
Qed.

(** C25: cyclic pointers *)
Definition cyc : Z := to_signed 64 (w_struct (-1) 0 1).
Lemma cyc_copy s : word_at s 0 = Some cyc -> forall fuel dst dp,
  0 <= dp -> dp + 8 <= blen dst -> copy_pointer fuel s cyc 0 dst dp = Err OutOfFuel.
Proof.
  intros W. induction fuel as [|fuel IH]; intros dst dp Hd Hb; [reflexivity|].
  cbn [copy_pointer]. change (kind cyc =? STRUCT) with true. cbn match. unfold copy_struct.
  change (deref cyc 0) with 0. change (struct_data_size cyc) with 0. change (struct_ptrs_size cyc) with 1.
  change (0 + 1 =? 0) with false. cbn match.
  unfold alloc_struct, allocate. rewrite new_struct_spec by lia.
  change ((0 + 1) * 8) with 8. change (zeros 8) with (repeat x00 8).
  assert (B8 : blen (dst ++ repeat x00 8) = blen dst + 8) by (rewrite blen_app; reflexivity).
  rewrite write_int64_in; [|unfold w_struct; lia|lia|lia]. cbn [bind].
  set (d1 := upd _ _ _). assert (BD : blen d1 = blen dst + 8).
  { subst d1. rewrite blen_upd; rewrite ?B8, ?blen_le_enc; lia. }
  unfold check_bounds. apply word_at_some in W as W'. destruct W' as (_ & W' & _). unfold slen in W'.
  replace (blen (sbuf s) <? 0 + 0 * 8) with false by (symmetry; lia). cbn [bind].
  unfold copy_many_ptrs, check_bounds.
  replace (blen (sbuf s) <? 0 + 0 * 8 + 1 * 8) with false by (symmetry; lia). cbn [bind].
  change (Z.to_nat 1) with 1%nat. cbn [copy_ptrs_loop].
  change (0 + 0 * 8) with 0.
  change (read_primitive s 0 Fq) with (read_ptr s 0). rewrite (proj2 (read_ptr_word _ _ _) W). cbn [bind].
  change (cyc =? 0) with false. cbn match.
  rewrite IH; [reflexivity| |].
  - lia.
  - unfold write_slice.
    assert (E : py_slice (sbuf s) 0 (0 + 0 * 8) = []).
    { rewrite py_slice_in by lia. reflexivity. }
    rewrite E. change (0 * 8) with 0. rewrite Z.add_0_r.
    replace (py_slice_set d1 (blen dst) (blen dst) []) with d1; [lia|].
    symmetry. replace (blen dst) with (blen dst + blen (@nil byte)) at 2 by (change (blen (@nil byte)) with 0; lia).
    pose proof (blen_nonneg dst).
    rewrite py_slice_set_in; [|lia|change (blen (@nil byte)) with 0; lia].
    unfold upd. change (blen (@nil byte)) with 0. rewrite Z.add_0_r. cbn [app]. apply firstn_skipn.
Qed.

Lemma cyclic_never_returns :
  exists m o, loads m = Ok (Some o) /\ forall fuel, o_compact fuel o = Err OutOfFuel /\ dumps fuel o false = Err OutOfFuel.
Proof.
  exists (frame [le_enc 8 (w_struct (-1) 0 1)]).
  exists {| o_seg := {| sbuf := le_enc 8 (w_struct (-1) 0 1); soffs := None |}; o_off := 0; o_ptrs := 0; o_ds := 0; o_ps := 1 |}.
  split; [vm_compute; reflexivity|]. intros fuel.
  assert (C : forall dst dp, 0 <= dp -> dp + 8 <= blen dst ->
    copy_from_struct fuel dst dp (Some {| o_seg := {| sbuf := le_enc 8 (w_struct (-1) 0 1); soffs := None |};
      o_off := 0; o_ptrs := 0; o_ds := 0; o_ps := 1 |}) = Err OutOfFuel).
  { intros dst dp H1 H2. cbn [copy_from_struct o_seg].
    destruct fuel as [|fuel]; [reflexivity|].
    change (as_pointer _ 0) with (new_struct (-1) 0 1).
    assert (K : copy_pointer (S fuel) {| sbuf := le_enc 8 (w_struct (-1) 0 1); soffs := None |} (new_struct (-1) 0 1) 0 dst dp
      = copy_pointer (S fuel) {| sbuf := le_enc 8 (w_struct (-1) 0 1); soffs := None |} cyc 0 dst dp) by reflexivity.
    rewrite K. apply cyc_copy; [vm_compute; reflexivity|exact H1|exact H2]. }
  split.
  - unfold o_compact, allocate. cbn [app].
    rewrite (C (zeros 8) (blen (@nil byte))); [reflexivity|vm_compute; discriminate|vm_compute; discriminate].
  - unfold dumps. cbn [bind]. change (negb (-1 =? -1)) with false. cbn match. unfold allocate. cbn [app].
    rewrite (C (zeros 16) 8); [reflexivity|vm_compute; discriminate|vm_compute; discriminate].
Qed.

(** ** Samples *)
Definition sample1_obj : obj :=
  {| o_seg := {| sbuf := sample1; soffs := None |}; o_off := 8; o_ptrs := 16; o_ds := 1; o_ps := 2 |}.

Lemma sample_lim : limv (VStruct sample1_data sample1_ptrs).
Proof. repeat split. Qed.
Lemma sample_noslack : noslack (VStruct sample1_data sample1_ptrs).
Proof. repeat split. Qed.
Lemma sample_packed : Forall packed sample1_ptrs.
Proof. repeat constructor. Qed.
Lemma sample_size : blen (content (VStruct sample1_data sample1_ptrs)) = 40.
Proof. reflexivity. Qed.
Lemma sample_depth : vdepth (VStruct sample1_data sample1_ptrs) = 2%nat.
Proof. reflexivity. Qed.

Lemma sample1_loads : exists o, loads (frame_with [] [sample1]) = Ok (Some o) /\ obj_den o sample1_data sample1_ptrs /\ aligned o.
Proof.
  destruct sample1_den as (p & W & D). destruct sample1_frameable as [F P].
  pose proof (loads_value [sample1] [] p (VStruct sample1_data sample1_ptrs) F P W D) as (o & L & O).
  exists o. split; [exact L|]. split; [exact O|].
  apply (reach_aligned (frame_with [] [sample1])); [vm_compute; discriminate|apply ro_loads; exact L].
Qed.
Lemma sample3_loads : exists o, loads (frame_with [] sample3) = Ok (Some o) /\ obj_den o sample1_data sample1_ptrs /\ aligned o.
Proof.
  destruct sample3_sden as (p & W & D). destruct sample3_frameable as [F P].
  pose proof (loads_multi sample3 [] p (VStruct sample1_data sample1_ptrs) F P ltac:(vm_compute; discriminate) W D) as (o & L & O).
  exists o. split; [exact L|]. split; [exact O|].
  apply (reach_aligned (frame_with [] sample3)); [vm_compute; discriminate|apply ro_loads; exact L].
Qed.
