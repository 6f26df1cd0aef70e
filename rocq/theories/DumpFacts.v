(** dumps, _get_end, _is_compact on whole objects; dump then load. *)
From Verif Require Import Base Spec BaseFacts Ptr PtrFacts Segment SegmentFacts Builder Copy Endof Enc EncFacts
  EncDen CopyFacts EndofFacts EndofTotal Struct Message List Query StructFacts MessageFacts MsgFinal ObjFacts.
From Coq Require Import ZifyBool ZifyNat.
Ltac Zify.zify_post_hook ::= Z.div_mod_to_equations.

Lemma get_end_eq o d vs fuel :
  obj_den o d vs ->
  o_get_end (S fuel) o =
  endof_ptrs (endof fuel) (Z.to_nat (o_ps o)) (o_seg o) (o_off o + 8 * o_ds o)
             (o_off o + 8 * o_ds o + 8 * o_ps o).
Proof.
  intros (E & Hd & Hp & B & D). unfold o_get_end. cbn [endof].
  rewrite new_struct_spec by lia. rewrite kind_spec, w_struct_kind. cbn [Z.eqb STRUCT].
  rewrite deref_spec, data_size_spec, ptrs_size_spec, w_struct_dsize, w_struct_psize by lia.
  unfold p_target. rewrite w_struct_off by lia. unfold endof_struct.
  f_equal; lia.
Qed.

Lemma get_end_total o d vs fuel :
  obj_den o d vs -> aligned o -> (vdepth (VStruct d vs) <= fuel)%nat ->
  exists e, o_get_end fuel o = Ok e /\ eend (o_seg o) (o_off o + 8 * o_ds o + 8 * o_ps o) e.
Proof.
  intros O (A1 & A2 & A3) Hf. cbn [vdepth] in Hf. destruct fuel as [|fuel]; [lia|].
  rewrite (get_end_eq o d vs fuel O). destruct O as (E & Hd & Hp & B & D).
  pose proof (den_ptrs_bounds _ _ _ _ D) as (P1 & P2).
  apply (proj1 (proj2 (endof_total _ A2)) _ _ _ D); [lia|lia|].
  right. lia.
Qed.

Lemma get_end_reloc o d vs fuel e :
  obj_den o d vs -> noslack (VStruct d vs) ->
  o_get_end fuel o = Ok e -> e <> -1 ->
  o_off o + 8 * o_ds o + 8 * o_ps o <= e /\
  forall s' hi k, moved (o_seg o) s' (o_off o) hi k -> e <= hi ->
    obj_den {| o_seg := s'; o_off := o_off o + k; o_ptrs := o_off o + k + 8 * o_ds o;
               o_ds := o_ds o; o_ps := o_ps o |} d vs.
Proof.
  intros O NS G Ne. destruct fuel as [|fuel]; [discriminate|].
  rewrite (get_end_eq o d vs fuel O) in G. destruct O as (E & Hd & Hp & B & D).
  apply (proj1 (vall_struct _ _ _)) in NS. destruct NS as [_ NS].
  destruct (proj1 (proj2 (reloc_all _)) _ _ _ D NS fuel _ _ G Ne) as [R1 R2].
  split; [exact R1|]. intros s' hi k M He.
  split; [reflexivity|]. cbn [o_ds o_ps o_off o_seg]. split; [exact Hd|]. split; [exact Hp|]. split.
  - apply (moved_bytes _ _ _ _ _ _ _ _ M); [lia|lia|lia|exact B].
  - replace (o_off o + k + 8 * o_ds o) with (o_off o + 8 * o_ds o + k) by lia.
    apply (R2 s' (o_off o) hi k M); lia.
Qed.

Lemma moved_cut s lo hi pre post offs :
  0 <= lo -> lo <= hi -> hi <= slen s ->
  moved s {| sbuf := pre ++ sub (sbuf s) lo (hi - lo) ++ post; soffs := offs |} lo hi (blen pre - lo).
Proof.
  intros H1 H2 H3. unfold moved, slen in *. cbn [sbuf].
  pose proof (blen_nonneg pre). pose proof (blen_nonneg post).
  assert (BS : blen (sub (sbuf s) lo (hi - lo)) = hi - lo) by (apply blen_sub; lia).
  rewrite !blen_app, BS. repeat split; try lia.
  intros i n Hi Hn Hin.
  rewrite sub_app2 by (rewrite ?blen_app, ?BS; lia). rewrite sub_app1 by (rewrite ?BS; lia).
  rewrite sub_sub by lia. f_equal. lia.
Qed.

(** ** C22 *)
Lemma compact_range o d vs fuel :
  obj_den o d vs -> aligned o -> noslack (VStruct d vs) ->
  (vdepth (VStruct d vs) <= fuel)%nat ->
  o_is_compact fuel o = Ok true ->
  exists e, o_get_end fuel o = Ok e /\
    o_off o + 8 * o_ds o + 8 * o_ps o <= e /\ e <= slen (o_seg o) /\ e mod 8 = 0 /\
    forall pre post offs,
      obj_den {| o_seg := {| sbuf := pre ++ sub (sbuf (o_seg o)) (o_off o) (e - o_off o) ++ post; soffs := offs |};
                 o_off := blen pre; o_ptrs := blen pre + 8 * o_ds o; o_ds := o_ds o; o_ps := o_ps o |} d vs.
Proof.
  intros O A NS Hf C. unfold o_is_compact in C.
  destruct (get_end_total o d vs fuel O A Hf) as (e & G & EE).
  rewrite G in C. cbn [bind] in C. apply ok_inj in C. exists e. split; [exact G|].
  assert (Ne : e <> -1) by lia. destruct EE as [EE|(E0 & E1 & E2)]; [lia|].
  destruct (get_end_reloc o d vs fuel e O NS G Ne) as [R1 R2].
  split; [exact R1|]. split; [lia|]. split; [exact E2|].
  intros pre post offs. pose proof O as (_ & Hd & Hp & B & _). apply bytes_at_some in B. destruct B as (B1 & B2 & _).
  pose proof (R2 _ e (blen pre - o_off o) (moved_cut (o_seg o) (o_off o) e pre post offs ltac:(lia) ltac:(lia) ltac:(lia))
    ltac:(lia)) as R.
  replace (o_off o + (blen pre - o_off o)) with (blen pre) in R by lia. exact R.
Qed.

(** ** the two paths of dumps *)
Lemma frame_one body : frame [body] = le_enc 4 0 ++ le_enc 4 (blen body / 8) ++ body.
Proof.
  unfold frame. cbn [map concat]. change (blen [body] - 1) with 0.
  change (Z.even (blen [body])) with false. cbn [app]. rewrite !app_nil_r. reflexivity.
Qed.

Lemma frame_one_ok body : blen body mod 8 = 0 -> blen body < 8 * 2 ^ 32 -> frameable [body].
Proof.
  intros H1 H2. split; [discriminate|]. split; [change (blen [body]) with 1; lia|].
  constructor; [lia|constructor].
Qed.

Lemma frame_with_one body : frame_with [] [body] = frame [body].
Proof. unfold frame, frame_with. change (Z.even (blen [body])) with false. reflexivity. Qed.

Lemma dumps_fast o d vs fuel e :
  obj_den o d vs -> aligned o -> blen vs < 2 ^ 15 ->
  o_get_end fuel o = Ok e -> e <> -1 -> o_off o <= e <= slen (o_seg o) -> e mod 8 = 0 ->
  dumps fuel o true =
  Ok (frame [le_enc 8 (w_struct 0 (o_ds o) (o_ps o)) ++ sub (sbuf (o_seg o)) (o_off o) (e - o_off o)]).
Proof.
  intros O A L G Ne E1 E2. destruct (obj_sizes _ _ _ O) as [S1 S2].
  destruct O as (_ & Hd & Hp & B & _). apply bytes_at_some in B. destruct B as (B1 & B2 & _).
  destruct A as (A1 & A2 & A3).
  unfold dumps. rewrite G. cbn [bind]. replace (negb (e =? -1)) with true by (symmetry; lia).
  unfold dump_message. rewrite new_struct_spec by lia.
  assert (W : 0 <= w_struct 0 (o_ds o) (o_ps o) < 2 ^ 63) by (unfold w_struct; lia).
  unfold slen in *. replace (_ || _ || _) with false by (symmetry; lia).
  replace (negb (in_fmtb FI ((e - o_off o) / 8 + 1) && in_fmtb Fq (w_struct 0 (o_ds o) (o_ps o)))) with false.
  2:{ symmetry. unfold in_fmtb. cbn. lia. }
  f_equal. rewrite frame_one. rewrite py_slice_in by lia.
  rewrite !blen_app, blen_le_enc, blen_sub by lia.
  replace ((Z.of_nat 8 + (e - o_off o)) / 8) with ((e - o_off o) / 8 + 1) by lia.
  rewrite fenc_q. unfold fenc. cbn [fsize]. change (Z.to_nat 4) with 4%nat. reflexivity.
Qed.

Lemma dumps_slow_eq fuel o b :
  copy_from_struct fuel (zeros 16) 8 (Some o) = Ok b -> 16 <= blen b -> blen b < 8 * 2 ^ 32 ->
  dumps fuel o false =
  Ok (upd (upd b 0 (le_enc 4 0)) 4 (le_enc 4 ((blen b - 8) / 8))).
Proof.
  intros C Hb Hb2. unfold dumps. cbn [bind]. change (negb (-1 =? -1)) with false. cbn match.
  unfold allocate. cbn [app]. rewrite C. cbn [bind]. unfold b_write.
  rewrite pack_into_in; [|unfold in_fmt; cbn; lia|lia|cbn; lia].
  cbn [bind]. change (fenc FI (1 - 1)) with (le_enc 4 0).
  rewrite pack_into_in; [reflexivity|unfold in_fmt; cbn; lia|lia|].
  rewrite blen_upd; rewrite ?blen_le_enc; cbn; lia.
Qed.

Lemma dumps_slow o d vs fuel :
  obj_den o d vs -> aligned o -> limv (VStruct d vs) ->
  16 + blen (content (VStruct d vs)) <= 2 ^ 32 ->
  (2 * vdepth (VStruct d vs) <= fuel)%nat ->
  dumps fuel o false =
  Ok (frame [le_enc 8 (ptr_word (VStruct d vs) 0) ++ content (VStruct d vs)]).
Proof.
  intros O A L Hlen Hf.
  pose proof (blen_nonneg (content (VStruct d vs))) as NC.
  assert (C : copy_from_struct fuel (zeros 16) 8 (Some o) =
    Ok (upd (zeros 16) 8 (le_enc 8 (ptr_word (VStruct d vs) 0)) ++ content (VStruct d vs))).
  { rewrite (copy_from_struct_spec o d vs (zeros 16) 8 fuel O A L);
      change (blen (zeros 16)) with 16; try lia. reflexivity. }
  set (w := ptr_word (VStruct d vs) 0) in *. set (c := content (VStruct d vs)) in *.
  assert (U : upd (zeros 16) 8 (le_enc 8 w) = zeros 8 ++ le_enc 8 w).
  { unfold upd. change (firstn (Z.to_nat 8) (zeros 16)) with (zeros 8). rewrite skipn_all2; [rewrite app_nil_r; reflexivity|].
    pose proof (blen_le_enc 8 w) as B8. unfold blen in *. change (length (zeros 16)) with 16%nat. lia. }
  rewrite U in C.
  assert (BL : blen ((zeros 8 ++ le_enc 8 w) ++ c) = 16 + blen c).
  { rewrite !blen_app, blen_le_enc. change (blen (zeros 8)) with 8. lia. }
  rewrite (dumps_slow_eq _ _ _ C) by lia. f_equal. rewrite BL, frame_one.
  rewrite blen_app, blen_le_enc.
  replace ((Z.of_nat 8 + blen c) / 8) with ((16 + blen c - 8) / 8) by lia.
  set (k := (16 + blen c - 8) / 8). rewrite <- !app_assoc.
  change (zeros 8) with (zeros 4 ++ zeros 4). rewrite <- !app_assoc.
  generalize (le_enc 8 w ++ c). intros tl. reflexivity.
Qed.

(** ** C24 *)
Lemma dumps_frame o d vs fuel fp :
  obj_den o d vs -> aligned o -> limv (VStruct d vs) ->
  16 + blen (content (VStruct d vs)) <= 2 ^ 32 ->
  (2 * vdepth (VStruct d vs) <= fuel)%nat ->
  exists body, dumps fuel o fp = Ok (frame [body]) /\ frameable [body].
Proof.
  intros O A L Hlen Hf.
  assert (SLOW : exists body, dumps fuel o false = Ok (frame [body]) /\ frameable [body]).
  { eexists. split; [apply dumps_slow; eassumption|].
    pose proof (content_mod _ (obj_wf _ _ _ O)). pose proof (blen_nonneg (content (VStruct d vs))).
    apply frame_one_ok; rewrite blen_app, blen_le_enc; lia. }
  destruct fp; [|exact SLOW].
  destruct (get_end_total o d vs fuel O A ltac:(lia)) as (e & G & E).
  destruct (Z.eq_dec e (-1)) as [->|Ne].
  - replace (dumps fuel o true) with (dumps fuel o false); [exact SLOW|].
    unfold dumps. rewrite G. reflexivity.
  - destruct E as [E|(E0 & E1 & E2)]; [lia|].
    pose proof (vall_root _ _ L) as L1. cbn [lim1] in L1.
    pose proof O as (_ & Hd & Hp & B & _). apply bytes_at_some in B. destruct B as (B1 & B2 & _).
    eexists. split; [apply (dumps_fast o d vs fuel e O A L1 G Ne); lia|].
    destruct A as (A1 & A2 & A3). unfold slen in *.
    apply frame_one_ok; rewrite blen_app, blen_le_enc, blen_sub by lia; lia.
Qed.

(** ** C23 *)
Lemma loads_one body p d vs :
  frameable [body] -> word_at {| sbuf := body; soffs := None |} 0 = Some p ->
  den {| sbuf := body; soffs := None |} p 0 (VStruct d vs) ->
  exists o, loads (frame [body]) = Ok (Some o) /\ obj_den o d vs.
Proof.
  intros F W D. rewrite <- frame_with_one.
  apply (loads_value [body] [] p (VStruct d vs) F); [reflexivity|exact W|exact D].
Qed.

Lemma slow_load d vs :
  wfv (VStruct d vs) -> 16 + blen (content (VStruct d vs)) <= 2 ^ 32 ->
  exists o, loads (frame [le_enc 8 (ptr_word (VStruct d vs) 0) ++ content (VStruct d vs)]) = Ok (Some o) /\
            obj_den o d vs.
Proof.
  intros W Hlen. pose proof (content_mod _ W). pose proof (blen_nonneg (content (VStruct d vs))).
  set (w := ptr_word (VStruct d vs) 0). set (c := content (VStruct d vs)) in *.
  apply (loads_one _ (to_signed 64 (w mod 2 ^ 64))).
  - apply frame_one_ok; rewrite blen_app, blen_le_enc; lia.
  - apply at_word. split; [lia|]. cbn [sbuf]. unfold slen. cbn [sbuf]. rewrite blen_app, blen_le_enc.
    split; [lia|]. rewrite sub_app1 by (rewrite ?blen_le_enc; lia).
    change (Z.of_nat 8) with (blen (le_enc 8 w)). apply sub_all.
  - apply (enc_den _ W _ _ 0 8 0).
    + apply reads_signed.
    + lia.
    + lia.
    + unfold slen; cbn [sbuf]; rewrite ?blen_app, ?blen_le_enc; lia.
    + fold c. lia.
    + apply (at_tail (le_enc 8 w) c). reflexivity.
Qed.

Lemma dumps_loads o d vs fuel (fp : bool) :
  obj_den o d vs -> aligned o -> limv (VStruct d vs) ->
  16 + blen (content (VStruct d vs)) <= 2 ^ 32 ->
  (2 * vdepth (VStruct d vs) <= fuel)%nat ->
  (fp = true -> noslack (VStruct d vs) /\ 0 < o_ds o + o_ps o) ->
  exists msg o', dumps fuel o fp = Ok msg /\ loads msg = Ok (Some o') /\ obj_den o' d vs.
Proof.
  intros O A L Hlen Hf Hfp.
  assert (SLOW : exists msg o', dumps fuel o false = Ok msg /\ loads msg = Ok (Some o') /\ obj_den o' d vs).
  { destruct (slow_load d vs (obj_wf _ _ _ O) Hlen) as (o' & L1 & L2).
    eexists _, o'. split; [apply dumps_slow; eassumption|]. split; assumption. }
  destruct fp; [|exact SLOW]. destruct (Hfp eq_refl) as [NS NE]. clear Hfp.
  destruct (get_end_total o d vs fuel O A ltac:(lia)) as (e & G & E).
  destruct (Z.eq_dec e (-1)) as [->|Ne].
  - replace (dumps fuel o true) with (dumps fuel o false); [exact SLOW|].
    unfold dumps. rewrite G. reflexivity.
  - destruct E as [E|(E0 & E1 & E2)]; [lia|].
    pose proof (vall_root _ _ L) as L1. cbn [lim1] in L1.
    pose proof O as (_ & Hd & Hp & B & _). apply bytes_at_some in B. destruct B as (B1 & B2 & _).
    destruct (compact_range o d vs fuel O A NS ltac:(lia)) as (e' & G' & _ & _ & _ & R).
    { unfold o_is_compact. rewrite G. cbn [bind]. f_equal. lia. }
    rewrite G in G'. apply ok_inj in G'. subst e'.
    set (w := w_struct 0 (o_ds o) (o_ps o)).
    set (body := le_enc 8 w ++ sub (sbuf (o_seg o)) (o_off o) (e - o_off o)).
    destruct A as (A1 & A2 & A3). unfold slen in *.
    assert (W : 0 < w < 2 ^ 63).
    { subst w. unfold w_struct. destruct (obj_sizes _ _ _ O) as [S1 S2]. lia. }
    destruct (loads_one body w d vs) as (o' & X1 & X2).
    + subst body. apply frame_one_ok; rewrite blen_app, blen_le_enc, blen_sub by lia; lia.
    + replace w with (to_signed 64 (w mod 2 ^ 64)) at 1
        by (rewrite Z.mod_small by lia; unfold to_signed; cbn; destruct (_ <? _) eqn:Q; lia).
      apply at_word. split; [lia|]. unfold slen. cbn [sbuf]. subst body. rewrite blen_app, blen_le_enc, blen_sub by lia.
      split; [lia|]. rewrite sub_app1 by (rewrite ?blen_le_enc; lia).
      change (Z.of_nat 8) with (blen (le_enc 8 w)). apply sub_all.
    + specialize (R (le_enc 8 w) [] None). destruct R as (_ & _ & _ & RB & RD). cbn [o_seg o_off o_ds o_ps] in *.
      rewrite app_nil_r in RB, RD. change (blen (le_enc 8 w)) with 8 in RB, RD. fold body in RB, RD.
      assert (T : p_target w 0 = 8) by (unfold p_target; subst w; rewrite w_struct_off by lia; lia).
      apply den_struct; [lia|apply w_struct_kind| |]; rewrite T; subst w;
        rewrite ?w_struct_dsize, ?w_struct_psize by lia; assumption.
    + exists (frame [body]), o'. split; [|split; assumption].
      apply (dumps_fast o d vs fuel e O (conj A1 (conj A2 A3)) L1 G Ne); unfold slen; lia.
Qed.
