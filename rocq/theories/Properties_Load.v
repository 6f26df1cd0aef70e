(** Property theorems C08-C16 and C49: framing, streams, far pointers. *)
From Verif Require Import Base Spec Ptr Segment Builder Copy Endof Struct Message List Query Stream StreamFacts SegSpec MsgFinal FarFinal Samples.

(** C08. The memory of the loaded message is [mem_of segs] (Spec.v): the
    concatenation of the segments, with the table of their starts when there
    are several. Whatever follows the message does not matter. *)
Theorem C08_load_message : forall segs pad rest,
  frameable segs -> pad_ok pad segs ->
  fst (load_message _ sb_read (frame_with pad segs ++ rest, 0))
  = init_from_buffer (mem_of segs) 0 0 1.
Proof. exact load_message_sb. Qed.
Print Assumptions C08_load_message.

Theorem C08_segment_table : forall segs k b,
  nth_error segs k = Some b ->
  nth_error (map (prefix_sum segs) (seq 0 (length segs))) k = Some (prefix_sum segs k) /\
  sub (concat segs) (prefix_sum segs k) (blen b) = b.
Proof. exact segment_table. Qed.
Print Assumptions C08_segment_table.

(** ... hence the object that loads() returns has the value of the root
    pointer of the message. *)
Theorem C08_loads_value : forall segs pad p v,
  frameable segs -> pad_ok pad segs ->
  word_at (mem_of segs) 0 = Some p -> den (mem_of segs) p 0 v ->
  match v with
  | VNull => loads (frame_with pad segs) = Ok None
  | VStruct d vs => exists o, loads (frame_with pad segs) = Ok (Some o) /\ obj_den o d vs
  | _ => loads (frame_with pad segs) = Err AssertionError
  end.
Proof. exact loads_value. Qed.
Print Assumptions C08_loads_value.
Example C08_ex : exists p, word_at (mem_of [sample1]) 0 = Some p /\
  frameable [sample1] /\ pad_ok [] [sample1] /\
  den (mem_of [sample1]) p 0 (VStruct sample1_data sample1_ptrs).
Proof.
  destruct sample1_den as (p & W & D). destruct sample1_frameable. exists p. auto.
Qed.
Example C08_ex_even : (* padding needed *)
  frameable [sample1; zeros 16] /\ pad_ok [x01; x02; x03; x04] [sample1; zeros 16].
Proof.
  split; [|reflexivity]. split; [discriminate|]. split; [vm_compute; discriminate|]. repeat constructor.
Qed.

(** C09, from a string and from any chunking of a stream. *)
Theorem C09_truncated_never_accepted : forall segs pad pre more,
  frameable segs -> pad_ok pad segs -> pre ++ more = frame_with pad segs -> more <> [] ->
  exists e, loads pre = Err e /\ (e = EOFError <-> pre = []) /\
            (pre <> [] -> e = ValueError \/ (concat segs = [] /\ e = AssertionError)).
Proof. exact loads_truncated. Qed.
Print Assumptions C09_truncated_never_accepted.

Theorem C09_truncated_stream : forall segs pad pre more chunks,
  frameable segs -> pad_ok pad segs -> pre ++ more = frame_with pad segs -> more <> [] ->
  Forall (fun ch => ch <> []) chunks -> concat chunks = pre ->
  exists e, fst (load _ bs_read (bs_init chunks)) = Err e /\ (e = EOFError <-> pre = []) /\
            (pre <> [] -> e = ValueError \/ (concat segs = [] /\ e = AssertionError)).
Proof. exact load_truncated_bs. Qed.
Print Assumptions C09_truncated_stream.
Example C09_ex : exists pre more, pre ++ more = frame_with [] sample3 /\ more <> [] /\ blen pre = 50.
Proof.
  exists (firstn 50 (frame_with [] sample3)), (skipn 50 (frame_with [] sample3)).
  split; [apply firstn_skipn|]. split; [vm_compute; discriminate|reflexivity].
Qed.
(** The "ValueError" part of the property does not extend to messages all of
    whose segments are empty: cut in the middle of the padding, such a
    message gives AssertionError. *)
Theorem C09_valueerror_refuted :
  exists segs pad pre more,
    frameable segs /\ pad_ok pad segs /\ pre ++ more = frame_with pad segs /\ more <> [] /\
    loads pre = Err AssertionError.
Proof. exact truncated_padding. Qed.
Print Assumptions C09_valueerror_refuted.

(** C10 *)
Theorem C10_trailing_bytes_rejected : forall segs pad extra,
  frameable segs -> pad_ok pad segs -> extra <> [] ->
  (exists e, loads (frame_with pad segs ++ extra) = Err e) /\
  forall x, loads (frame_with pad segs) = Ok x ->
            loads (frame_with pad segs ++ extra) = Err ValueError.
Proof. exact loads_trailing. Qed.
Print Assumptions C10_trailing_bytes_rejected.

Theorem C10_accepts_only_messages : forall r x,
  loads r = Ok x ->
  exists segs pad, frameable segs /\ pad_ok pad segs /\ r = frame_with pad segs.
Proof. exact loads_only. Qed.
Print Assumptions C10_accepts_only_messages.
Example C10_ex :
  (do x <- loads (frame_with [] sample3);
   match x with Some o => o_read_primitive o 0 Fq | None => Err ValueError end) = Ok 42.
Proof. vm_compute. reflexivity. Qed.

(** C11. Messages are given with their padding; [xs] are the objects they
    give one by one with loads. *)
Theorem C11_load_all : forall msgs xs chunks fuel,
  Forall (fun m => frameable (snd m) /\ pad_ok (fst m) (snd m)) msgs ->
  Forall2 (fun m x => loads (frame_with (fst m) (snd m)) = Ok x) msgs xs ->
  Forall (fun ch => ch <> []) chunks ->
  concat chunks = concat (map (fun m => frame_with (fst m) (snd m)) msgs) ->
  (length msgs < fuel)%nat ->
  load_all _ bs_read fuel (bs_init chunks) = (xs, None).
Proof. exact load_all_stream. Qed.
Print Assumptions C11_load_all.

Theorem C11_load_all_cut : forall msgs xs m pre more chunks fuel,
  Forall (fun m => frameable (snd m) /\ pad_ok (fst m) (snd m)) msgs ->
  Forall2 (fun m x => loads (frame_with (fst m) (snd m)) = Ok x) msgs xs ->
  frameable (snd m) -> pad_ok (fst m) (snd m) -> concat (snd m) <> [] ->
  pre ++ more = frame_with (fst m) (snd m) -> pre <> [] -> more <> [] ->
  Forall (fun ch => ch <> []) chunks ->
  concat chunks = concat (map (fun m => frame_with (fst m) (snd m)) msgs) ++ pre ->
  (length msgs < fuel)%nat ->
  load_all _ bs_read fuel (bs_init chunks) = (xs, Some ValueError).
Proof. exact load_all_stream_cut. Qed.
Print Assumptions C11_load_all_cut.
Example C11_ex : exists xs,
  Forall2 (fun m x => loads (frame_with (fst m) (snd m)) = Ok x) [([], sample3); ([], [sample1])] xs.
Proof.
  destruct (is_ok_ex (loads (frame_with [] sample3))) as [x E1]; [vm_compute; reflexivity|].
  destruct (is_ok_ex (loads (frame_with [] [sample1]))) as [y E2]; [vm_compute; reflexivity|].
  exists [x; y]. constructor; [exact E1|]. constructor; [exact E2|]. constructor.
Qed.

(** C12. [run_ops] gives the list of the results of the calls; the
    specification is [ideal_read], [ideal_readall], [ideal_readline]
    (Stream.v) on the plain sequence of bytes. *)
Theorem C12_buffered_stream : forall chunks ops,
  Forall (fun c => c <> []) chunks -> Forall op_ok ops ->
  run_ops bs_read bs_readall bs_readline ops (bs_init chunks) =
  run_ops ideal_read ideal_readall ideal_readline ops (concat chunks).
Proof. exact bs_run_init. Qed.
Print Assumptions C12_buffered_stream.

Theorem C12_string_buffer : forall s ops,
  Forall op_ok ops ->
  run_ops sb_read sb_readall sb_readline ops (s, 0) =
  run_ops ideal_read ideal_readall ideal_readline ops s.
Proof. exact sb_run_init. Qed.
Print Assumptions C12_string_buffer.
Example C12_ex :
  let chunks := [[x61; x0a]; [x62]; [x63; x64; x0a; x65]] in
  run_ops bs_read bs_readall bs_readline [RRead 1; RReadLine; RReadLine; RRead 9; RReadAll] (bs_init chunks)
  = [[x61]; [x0a]; [x62; x63; x64; x0a]; [x65]; []].
Proof. vm_compute. reflexivity. Qed.

(** C13 *)
Theorem C13_chunking_irrelevant : forall chunks r st',
  Forall (fun ch => ch <> []) chunks ->
  load _ bs_read (bs_init chunks) = (r, st') ->
  exists i', load _ sb_read (concat chunks, 0) = (r, (concat chunks, i')) /\
             bs_left st' = sb_left (concat chunks, i') /\ bs_ok st' /\ 0 <= i'.
Proof. exact load_chunks. Qed.
Print Assumptions C13_chunking_irrelevant.

(** The next reads continue exactly after the message. *)
Theorem C13_position : forall chunks segs pad rest ops,
  Forall (fun ch => ch <> []) chunks -> frameable segs -> pad_ok pad segs ->
  concat chunks = frame_with pad segs ++ rest -> Forall op_ok ops ->
  exists st', load _ bs_read (bs_init chunks) = (loads (frame_with pad segs), st') /\
    run_ops bs_read bs_readall bs_readline ops st' =
    run_ops ideal_read ideal_readall ideal_readline ops rest.
Proof. exact load_then_read. Qed.
Print Assumptions C13_position.

(** C49: the transport is asked for no chunk after the one in which the
    message ends (so a reader never blocks waiting for the next message). *)
Theorem C49_no_overread : forall chunks segs pad rest,
  Forall (fun ch => ch <> []) chunks -> frameable segs -> pad_ok pad segs ->
  concat chunks = frame_with pad segs ++ rest ->
  exists st' used,
    load _ bs_read (bs_init chunks) = (loads (frame_with pad segs), st') /\
    chunks = used ++ bs_src st' /\
    blen (concat (removelast used)) < blen (frame_with pad segs).
Proof. exact load_no_overread'. Qed.
Print Assumptions C49_no_overread.
Example C13_ex :
  let m := frame_with [] sample3 in
  let st := snd (load _ bs_read (bs_init [firstn 5 m; skipn 5 m ++ [x61]; [x62]])) in
  bs_left st = [x61; x62] /\ bs_src st = [[x62]].
Proof. vm_compute. auto. Qed.

(** C14. [written] and [flushed] are the bytes of all the writes, and of the
    writes before the last flush. *)
Theorem C14_socket_sends : forall ops,
  let st := w_run ops {| w_buf := []; w_sent := [] |} in
  w_sent st = flushed ops /\ w_sent st ++ concat (w_buf st) = written ops.
Proof. exact socket_sends. Qed.
Print Assumptions C14_socket_sends.
Theorem C14_failed_flush_refuted : exists ops k,
  let st := w_run ops {| w_buf := []; w_sent := [] |} in
  let st' := w_step WFlush (w_flush_fail k st) in
  w_sent st' <> written ops.
Proof. exact failed_flush_duplicates. Qed.
Print Assumptions C14_failed_flush_refuted.
Example C14_ex : w_run [WWrite [x61]; WFlush; WWrite [x62]; WWrite [x63]; WFlush; WWrite [x64]] {| w_buf := []; w_sent := [] |}
  = {| w_buf := [[x64]]; w_sent := abc |}.
Proof. reflexivity. Qed.

(** C15. [sden] (SegSpec.v) is the meaning of a message in the segmented
    address space. *)
Theorem C15_far_pointers : forall segs pad p v,
  frameable segs -> pad_ok pad segs -> 2 <= blen segs ->
  seg_word segs 0 0 = Some p -> sden segs 0 p 0 v ->
  match v with
  | VNull => loads (frame_with pad segs) = Ok None
  | VStruct d vs => exists o, loads (frame_with pad segs) = Ok (Some o) /\ obj_den o d vs
  | _ => loads (frame_with pad segs) = Err AssertionError
  end.
Proof. exact loads_multi. Qed.
Print Assumptions C15_far_pointers.

Theorem C15_read_far_ptr : forall segs k i p k' i' q,
  seg_word segs k i = Some p -> sfar segs p k' i' q ->
  read_far_ptr (flat segs) (prefix_sum segs (Z.to_nat k) + i)
  = Ok (prefix_sum segs (Z.to_nat k') + i', q).
Proof. exact read_far_ptr_flat. Qed.
Print Assumptions C15_read_far_ptr.
Example C15_ex : exists p, frameable sample3 /\ pad_ok [] sample3 /\ 2 <= blen sample3 /\
  seg_word sample3 0 0 = Some p /\ sden sample3 0 p 0 (VStruct sample1_data sample1_ptrs).
Proof.
  destruct sample3_sden as (p & W & D). destruct sample3_frameable. exists p.
  repeat (split; [assumption||(vm_compute; discriminate)|]). exact D.
Qed.

(** C16 *)
Theorem C16_far_rejected : forall o k p,
  soffs (o_seg o) = None -> 0 <= k < o_ps o ->
  word_at (o_seg o) (o_ptrs o + 8 * k) = Some p -> p_kind p = 2 ->
  o_read_struct o (8 * k) = Err ValueError /\
  (forall t, o_read_list o (8 * k) t = Err ValueError) /\
  (forall dflt add, o_read_data o (8 * k) dflt add = Err ValueError).
Proof. exact far_rejected. Qed.
Print Assumptions C16_far_rejected.
Theorem C16_far_item_rejected : forall l i p,
  soffs (l_seg l) = None -> 0 <= i < l_count l -> l_ioff l = 0 -> l_len l = 8 ->
  word_at (l_seg l) (l_off l + 8 * i) = Some p -> p_kind p = 2 ->
  (exists add, l_it l = ITText add) \/ (exists t, l_it l = ITList t) ->
  l_getitem l i = Err ValueError.
Proof. exact far_item_rejected. Qed.
Print Assumptions C16_far_item_rejected.
Theorem C16_far_copy_rejected : forall s p pos dst dp fuel,
  soffs s = None -> p_kind p = 2 ->
  copy_pointer (S fuel) s p pos dst dp = Err ValueError.
Proof. exact far_copy_rejected. Qed.
Print Assumptions C16_far_copy_rejected.
Example C16_ex :
  let s := {| sbuf := le_enc 8 (w_far 0 1 0) ++ le_enc 8 (w_struct 0 0 0); soffs := None |} in
  let o := {| o_seg := s; o_off := 0; o_ptrs := 0; o_ds := 0; o_ps := 1 |} in
  init_from_buffer s 0 0 1 = Ok o /\
  match word_at (o_seg o) (o_ptrs o + 8 * 0) with Some p => p_kind p = 2 | None => False end.
Proof. split; vm_compute; reflexivity. Qed.
