(** Property theorems C17-C25 and C46: copying, compacting, dumping.

    Reading guide. [obj_den o d vs]: the struct object [o] has data section
    [d] and pointer values [vs] (Query.v, over Spec.den). [aligned o]: the
    object sits at a word boundary of a buffer of whole words, at most 2^32
    bytes; C19_reachable_aligned shows that every object obtained from a
    loaded message is. [limv v]: no list of 2^28 items or more, no struct with
    2^15 pointers or more (Enc.v); C17_big_list_refuted shows why. [content v]
    is the canonical encoding of [v] (Enc.v), only used for its length, except
    in C19. [vdepth] is the nesting depth. *)
From Verif Require Import Base Spec Ptr Segment Builder Copy Endof Enc Struct Message List Query MsgFinal
  EndofFacts ObjFacts DumpFacts AlignFacts CopyFrame CopyFinal Samples.

(** C17 (value) and C18 (everything else untouched). *)
Theorem C17_copy_value : forall s p pos v dst dp fuel,
  den s p pos v -> p <> 0 -> (p_kind p = 2 -> word_at s pos = Some p) -> limv v ->
  0 <= dp -> dp mod 8 = 0 -> dp + 8 <= blen dst -> blen dst mod 8 = 0 ->
  blen dst + blen (content v) <= 2 ^ 32 ->
  (2 * vdepth v <= fuel)%nat ->
  exists dst' p',
    copy_pointer fuel s p pos dst dp = Ok dst' /\
    word_at {| sbuf := dst'; soffs := None |} dp = Some p' /\
    den {| sbuf := dst'; soffs := None |} p' dp v /\
    blen dst <= blen dst' /\
    (forall i, 0 <= i < blen dst -> i < dp \/ dp + 8 <= i -> getb dst' i = getb dst i).
Proof. exact copy_pointer_value. Qed.
Print Assumptions C17_copy_value.
Example C17_ex : exists p, word_at {| sbuf := sample1; soffs := None |} 0 = Some p /\
  den {| sbuf := sample1; soffs := None |} p 0 (VStruct sample1_data sample1_ptrs) /\
  limv (VStruct sample1_data sample1_ptrs).
Proof. destruct sample1_den as (p & W & D). exists p. split; [exact W|]. split; [exact D|exact sample_lim]. Qed.

(** Without the limit the copy is refused. *)
Theorem C17_big_list_refuted :
  exists p, word_at big_void 0 = Some p /\ den big_void p 0 (VList 0 (2 ^ 28) []) /\
    copy_pointer 10 big_void p 0 (zeros 8) 0 = Err StructError.
Proof. exact big_list_refused. Qed.
Print Assumptions C17_big_list_refuted.

(** C18 for any source, well-formed or not, and any pointer word. *)
Theorem C18_copy_only_appends : forall fuel s p pos dst dp dst',
  0 <= dp -> copy_pointer fuel s p pos dst dp = Ok dst' ->
  blen dst <= blen dst' /\
  forall i, 0 <= i < blen dst -> i < dp \/ dp + 8 <= i -> getb dst' i = getb dst i.
Proof. exact copy_pointer_frame. Qed.
Print Assumptions C18_copy_only_appends.
Example C18_ex : (* a hostile source: negative offset, list longer than the buffer *)
  match copy_pointer 10 {| sbuf := le_enc 8 (w_struct (-3) 1 0) ++ zeros 24; soffs := None |} (w_struct (-3) 1 0) 0
          [x01; x02; x03; x04; x05; x06; x07; x08; x09; x09; x09; x09; x09; x09; x09; x09] 8 with
  | Ok b => firstn 8 b = [x01; x02; x03; x04; x05; x06; x07; x08] | Err _ => False end.
Proof. vm_compute. reflexivity. Qed.

(** C19. The buffer of the compacted object is a pointer followed by the
    canonical encoding of the value, and nothing else. *)
Theorem C19_compact : forall o d vs fuel,
  obj_den o d vs -> aligned o -> limv (VStruct d vs) ->
  8 + blen (content (VStruct d vs)) <= 2 ^ 32 ->
  (2 * vdepth (VStruct d vs) <= fuel)%nat ->
  exists o', o_compact fuel o = Ok o' /\ obj_den o' d vs /\ aligned o' /\
    o_ds o' = o_ds o /\ o_ps o' = o_ps o /\ o_off o' = 8 /\
    o_seg o' = {| sbuf := le_enc 8 (ptr_word (VStruct d vs) 0) ++ content (VStruct d vs); soffs := None |}.
Proof. exact compact_den. Qed.
Print Assumptions C19_compact.

Theorem C19_reachable_aligned : forall r o, blen r <= 2 ^ 32 -> reach_obj r o -> aligned o.
Proof. exact reach_aligned. Qed.
Print Assumptions C19_reachable_aligned.
Example C19_ex : (* an object spread over three segments *)
  exists o, loads (frame_with [] sample3) = Ok (Some o) /\ obj_den o sample1_data sample1_ptrs /\ aligned o /\
    limv (VStruct sample1_data sample1_ptrs) /\
    8 + blen (content (VStruct sample1_data sample1_ptrs)) <= 2 ^ 32 /\
    (2 * vdepth (VStruct sample1_data sample1_ptrs) <= 4)%nat.
Proof.
  destruct sample3_loads as (o & L & O & A). exists o. repeat (split; [assumption||exact sample_lim|]).
  rewrite sample_size, sample_depth. split; [vm_compute; discriminate|auto].
Qed.

(** C20. [packed v] : no empty struct and no struct list with unused words in [v]. *)
Theorem C20_compact_is_compact : forall o d vs fuel,
  obj_den o d vs -> aligned o -> limv (VStruct d vs) -> Forall packed vs ->
  8 + blen (content (VStruct d vs)) <= 2 ^ 32 ->
  (2 * vdepth (VStruct d vs) <= fuel)%nat ->
  exists o', o_compact fuel o = Ok o' /\ obj_den o' d vs /\ o_is_compact fuel o' = Ok true /\
             o_get_end fuel o' = Ok (slen (o_seg o')).
Proof. exact compact_is_compact. Qed.
Print Assumptions C20_compact_is_compact.
Example C20_ex : Forall packed sample1_ptrs. Proof. exact sample_packed. Qed.
(** The property as stated is false for objects that contain an empty struct. *)
Theorem C20_compact_is_compact_refuted :
  exists m o o', loads m = Ok (Some o) /\ o_compact 10 o = Ok o' /\ o_is_compact 10 o' = Ok false.
Proof. exact compact_not_compact. Qed.
Print Assumptions C20_compact_is_compact_refuted.
(** ... and for objects that contain a struct list with unused words. *)
Theorem C20_slack_refuted :
  exists m o o', loads m = Ok (Some o) /\ o_compact 10 o = Ok o' /\ o_is_compact 10 o' = Ok false.
Proof. exact slack_not_compact. Qed.
Print Assumptions C20_slack_refuted.

(** C21 *)
Theorem C21_canonical : forall o1 o2 d vs f1 f2,
  obj_den o1 d vs -> obj_den o2 d vs -> aligned o1 -> aligned o2 -> limv (VStruct d vs) ->
  8 + blen (content (VStruct d vs)) <= 2 ^ 32 ->
  (2 * vdepth (VStruct d vs) <= f1)%nat -> (2 * vdepth (VStruct d vs) <= f2)%nat ->
  exists o', o_compact f1 o1 = Ok o' /\ o_compact f2 o2 = Ok o'.
Proof. exact compact_canonical. Qed.
Print Assumptions C21_canonical.
Theorem C21_idempotent : forall o d vs fuel,
  obj_den o d vs -> aligned o -> limv (VStruct d vs) ->
  8 + blen (content (VStruct d vs)) <= 2 ^ 32 ->
  (2 * vdepth (VStruct d vs) <= fuel)%nat ->
  exists o', o_compact fuel o = Ok o' /\ o_compact fuel o' = Ok o'.
Proof. exact compact_idem. Qed.
Print Assumptions C21_idempotent.
Example C21_ex : exists o1 o2,
  loads (frame_with [] [sample1]) = Ok (Some o1) /\ loads (frame_with [] sample3) = Ok (Some o2) /\
  obj_den o1 sample1_data sample1_ptrs /\ obj_den o2 sample1_data sample1_ptrs /\ aligned o1 /\ aligned o2.
Proof.
  destruct sample1_loads as (o1 & L1 & O1 & A1). destruct sample3_loads as (o2 & L2 & O2 & A2).
  exists o1, o2. auto 10.
Qed.

(** C22. The bytes [o_off, e) can be cut out and put anywhere, in any
    surroundings. [noslack]: no struct list with unused words. *)
Theorem C22_compact_self_contained : forall o d vs fuel,
  obj_den o d vs -> aligned o -> noslack (VStruct d vs) ->
  (vdepth (VStruct d vs) <= fuel)%nat ->
  o_is_compact fuel o = Ok true ->
  exists e, o_get_end fuel o = Ok e /\
    o_off o + 8 * o_ds o + 8 * o_ps o <= e /\ e <= slen (o_seg o) /\ e mod 8 = 0 /\
    forall pre post offs,
      obj_den {| o_seg := {| sbuf := pre ++ sub (sbuf (o_seg o)) (o_off o) (e - o_off o) ++ post; soffs := offs |};
                 o_off := blen pre; o_ptrs := blen pre + 8 * o_ds o; o_ds := o_ds o; o_ps := o_ps o |} d vs.
Proof. exact compact_range. Qed.
Print Assumptions C22_compact_self_contained.
Example C22_ex :
  (do x <- loads (frame_with [] [sample1]);
   match x with Some o => o_is_compact 3 o | None => Err ValueError end) = Ok true.
Proof. vm_compute. reflexivity. Qed.
(** With unused words the answer "compact" is wrong: see also C23. *)
Theorem C22_slack_refuted :
  exists o m' o',
    loads (frame [slack_msg]) = Ok (Some o) /\
    obj_den o [] [VComp 1 0 [(le_enc 8 5, [])] (zeros 8)] /\
    dumps 10 o true = Ok m' /\ loads m' = Ok (Some o') /\
    is_ok (o_compact 10 o) = true /\ o_compact 10 o' = Err IndexError.
Proof. exact slack_lost. Qed.
Print Assumptions C22_slack_refuted.

(** C23. Only the fast path needs the object to have no unused words in its
    struct lists and not to be an empty struct. *)
Theorem C23_dumps_loads : forall o d vs fuel (fastpath : bool),
  obj_den o d vs -> aligned o -> limv (VStruct d vs) ->
  16 + blen (content (VStruct d vs)) <= 2 ^ 32 ->
  (2 * vdepth (VStruct d vs) <= fuel)%nat ->
  (fastpath = true -> noslack (VStruct d vs) /\ 0 < o_ds o + o_ps o) ->
  exists msg o', dumps fuel o fastpath = Ok msg /\ loads msg = Ok (Some o') /\ obj_den o' d vs.
Proof. exact dumps_loads. Qed.
Print Assumptions C23_dumps_loads.
Example C23_ex : exists o, loads (frame_with [] sample3) = Ok (Some o) /\ obj_den o sample1_data sample1_ptrs /\
  aligned o /\ noslack (VStruct sample1_data sample1_ptrs) /\ 0 < o_ds o + o_ps o.
Proof.
  destruct sample3_loads as (o & L & O & A). exists o. split; [exact L|]. split; [exact O|]. split; [exact A|].
  split; [exact sample_noslack|]. destruct (obj_sizes _ _ _ O) as [E1 E2].
  change (blen sample1_data) with 8 in E1. change (blen sample1_ptrs) with 2 in E2. lia.
Qed.
Theorem C23_empty_root_refuted :
  exists m o m', loads m = Ok (Some o) /\ dumps 10 o true = Ok m' /\ loads m' = Ok None.
Proof. exact empty_root_lost. Qed.
Print Assumptions C23_empty_root_refuted.

(** C24 *)
Theorem C24_one_message : forall o d vs fuel fastpath,
  obj_den o d vs -> aligned o -> limv (VStruct d vs) ->
  16 + blen (content (VStruct d vs)) <= 2 ^ 32 ->
  (2 * vdepth (VStruct d vs) <= fuel)%nat ->
  exists body, dumps fuel o fastpath = Ok (frame [body]) /\ frameable [body].
Proof. exact dumps_frame. Qed.
Print Assumptions C24_one_message.

(** C25 *)
Theorem C25_copy_terminates : forall s p pos v dst dp,
  den s p pos v -> p <> 0 -> (p_kind p = 2 -> word_at s pos = Some p) -> limv v ->
  0 <= dp -> dp mod 8 = 0 -> dp + 8 <= blen dst -> blen dst mod 8 = 0 ->
  blen dst + blen (content v) <= 2 ^ 32 ->
  exists dst', forall fuel, (2 * vdepth v <= fuel)%nat -> copy_pointer fuel s p pos dst dp = Ok dst'.
Proof. exact copy_terminates. Qed.
Print Assumptions C25_copy_terminates.
(** A message whose root points to itself: no amount of recursion suffices. *)
Theorem C25_cyclic_refuted :
  exists m o, loads m = Ok (Some o) /\
    forall fuel, o_compact fuel o = Err OutOfFuel /\ dumps fuel o false = Err OutOfFuel.
Proof. exact cyclic_never_returns. Qed.
Print Assumptions C25_cyclic_refuted.
