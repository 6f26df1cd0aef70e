(** The compiled (PYX) library: reading (C58), loading (C59), dumping (C60). *)
From Verif Require Import Base BaseFacts Spec Ptr PtrFacts Segment SegmentFacts Builder Copy Endof Struct List Message
  StreamFacts MessageFacts MsgFinal Enc EncFacts Query ObjFacts EndofFacts DumpFacts Samples
  CRead CReadSpec CReadFacts BuilderC CLoad CLoadFacts CLoadFacts2 CEndofFacts CDumpFacts.
From Coq Require Import ZifyBool.
Ltac Zify.zify_post_hook ::= Z.div_mod_to_equations.

Notation pure_walk := (walk o_read_struct o_read_list l_getitem o_read_primitive o_read_bit o_read_data o_which).
Notation compiled_walk :=
  (walk c_o_read_struct c_o_read_list c_l_getitem c_o_read_primitive c_o_read_bit c_o_read_data c_o_which).

Lemma opens_long segs o : opens segs (Some o) -> blen (sbuf (mem_of segs)) < 2 ^ 60 -> long_obj o.
Proof.
  intros [H|(_ & H)] B; [|discriminate]. unfold open_segments in H.
  destruct (init_from_buffer (mem_of segs) 0 0 1) as [m|] eqn:I; [|discriminate]. cbn [bind] in H.
  assert (LO : long_obj m).
  { apply (init_long (mem_of segs) 0 0 1); try lia; [|exact I]. apply long_mem. exact B. }
  destruct (read_struct_eq m 0 LO ltac:(lia)) as ([D|(D & _)] & R); [|congruence].
  apply R. congruence.
Qed.

Lemma loads_long r o : loads r = Ok (Some o) -> blen r < 2 ^ 60 -> long_obj o.
Proof.
  intros L B. destruct (loads_sound _ _ L) as (segs & pad & F & PK & E & X).
  pose proof (blen_concat_le segs pad PK). pose proof (blen_nonneg segs). rewrite <- E in *.
  apply (opens_long segs); [|lia]. left. exact X.
Qed.

Lemma c_loads_long r o : c_loads r = Ok (Some o) -> blen r < 2 ^ 31 - 16 -> long_obj o.
Proof.
  intros L B. destruct (c_loads_inv r B _ L) as [(segs & pad & F & PK & E & X)|(u & body & E & _ & _ & X)].
  - pose proof (blen_concat_le segs pad PK). pose proof (blen_nonneg segs). rewrite <- E in *.
    apply (opens_long segs); [exact X|lia].
  - apply (opens_long [body]); [exact X|]. cbn [mem_of sbuf]. rewrite E, !blen_app, !blen_le_enc in B. lia.
Qed.

(** * C58: reading

    [o] is what loading some bytes gives; any sequence of accesses to fields
    and items, ending with a scalar, a text or a length. *)
Theorem C58_walk : forall r o xs q a,
  loads r = Ok (Some o) -> blen r < 2 ^ 60 -> Forall step_ok xs -> query_ok q ->
  pure_walk (HObj o) xs q = Ok a ->
  compiled_walk (HObj o) xs q = Ok a \/
  ((exists off, q = QWhich off) /\ a = ANum (-1) /\ compiled_walk (HObj o) xs q = Err SystemError).
Proof.
  intros r o xs q a L B SO QO. pose proof (loads_long r o L B) as LO. unfold walk.
  destruct (do_steps o_read_struct o_read_list l_getitem (HObj o) xs) as [h|] eqn:S; [|discriminate]. cbn [bind]. intros Q.
  destruct (steps_agree xs (HObj o) h LO SO S) as (-> & LH). cbn [bind].
  pose proof (query_agree h q a LH QO Q) as E. rewrite E.
  destruct q; auto. destruct a as [z| | |]; auto. destruct z as [|p|[p|p|]]; auto.
  right. split; [eexists; reflexivity|]. auto.
Qed.
Print Assumptions C58_walk.

(** Where the pure library raises, one access at a time. *)
Theorem C58_struct : forall o off, long_obj o -> field_off off ->
  differ (fun x => x = None) (o_read_struct o off) (c_o_read_struct o off).
Proof. intros. apply read_struct_eq; [assumption|apply field_off_20; assumption]. Qed.
Print Assumptions C58_struct.
Theorem C58_list : forall o off t, long_obj o -> field_off off ->
  differ no_list (o_read_list o off t) (c_o_read_list o off t).
Proof. intros. apply read_list_eq; [assumption|apply field_off_20; assumption]. Qed.
Print Assumptions C58_list.
Theorem C58_item : forall l i, long_list l -> it_ok (l_it l) -> differ no_item (l_getitem l i) (c_l_getitem l i).
Proof. intros. apply getitem_eq; assumption. Qed.
Print Assumptions C58_item.
Theorem C58_data : forall o off d (text : bool), long_obj o -> field_off off ->
  differ (fun x => x = d) (o_read_data o off d (if text then -1 else 0)) (c_o_read_data o off d (if text then -1 else 0)).
Proof. intros. apply read_data_eq; [assumption|apply field_off_20; assumption|destruct text; lia]. Qed.
Print Assumptions C58_data.
Theorem C58_scalar : forall o off f m, long_obj o -> field_off off ->
  c_o_read_primitive o off f = o_read_primitive o off f /\ c_o_read_bit o off m = o_read_bit o off m.
Proof. intros o off f m H F. apply field_off_20 in F. split; [apply o_read_primitive_eq|apply read_bit_eq]; assumption. Qed.
Print Assumptions C58_scalar.
Theorem C58_which : forall o off, long_obj o -> field_off off ->
  c_o_which o off = match o_which o off with
                    | Ok t => if t =? -1 then Err SystemError else Ok t
                    | Err _ => Ok 0
                    end.
Proof. intros. apply which_eq; [assumption|apply field_off_20; assumption]. Qed.
Print Assumptions C58_which.

(** No walk from anything the compiled loads() accepts touches memory outside
    of the buffer, whatever the bytes. *)
Theorem C58_no_fault : forall r o xs q,
  c_loads r = Ok (Some o) -> blen r < 2 ^ 31 - 16 -> Forall step_ok xs -> query_ok q ->
  compiled_walk (HObj o) xs q <> Err MemFault.
Proof. intros r o xs q L B SO QO. apply c_walk_nf; [exact (c_loads_long r o L B)|assumption|assumption]. Qed.
Print Assumptions C58_no_fault.

(** An example: the text of a struct in a list. *)
Definition ex58 : bytes :=
  frame [le_enc 8 (w_struct 0 0 1) ++ le_enc 8 (w_list 0 7 2) ++ le_enc 8 (w_struct 1 1 1) ++
         le_enc 8 77 ++ le_enc 8 (w_list 0 2 4) ++ abc ++ zeros 5].
Definition ex58_steps : list step := [SList 0 (ITStruct 1 1); SItem 0].
Example C58_ex :
  exists o, loads ex58 = Ok (Some o) /\ c_loads ex58 = Ok (Some o) /\
  pure_walk (HObj o) ex58_steps (QData 0 None true) = Ok (ABytes (Some (abc))) /\
  compiled_walk (HObj o) ex58_steps (QData 0 None true) = Ok (ABytes (Some (abc))).
Proof. eexists. repeat (split; [vm_compute; reflexivity|]). vm_compute; reflexivity. Qed.

(** A list whose tag lies outside of the buffer is an empty list, a far
    pointer which leads outside of it is a null pointer. *)
Theorem C58_bounds_refuted : exists r o, loads r = Ok (Some o) /\
  o_read_list o 0 (ITStruct 1 0) = Err IndexError /\
  (exists l, c_o_read_list o 0 (ITStruct 1 0) = Ok (Some l) /\ l_count l = 0) /\
  o_read_struct o 8 = Err IndexError /\ c_o_read_struct o 8 = Ok None.
Proof.
  exists (frame [le_enc 8 (w_struct 0 0 2) ++ le_enc 8 (w_list 100 7 2) ++ le_enc 8 (w_far 0 100 1); zeros 8]).
  eexists. split; [vm_compute; reflexivity|]. split; [vm_compute; reflexivity|].
  split; [eexists; split; vm_compute; reflexivity|]. split; vm_compute; reflexivity.
Qed.
Print Assumptions C58_bounds_refuted.

(** The tag 65535 of an union. *)
Theorem C58_which_refuted : exists r o, loads r = Ok (Some o) /\
  o_which o 0 = Ok (-1) /\ c_o_which o 0 = Err SystemError.
Proof.
  exists (frame [le_enc 8 (w_struct 0 1 0) ++ le_enc 8 65535]). eexists. repeat (split; [vm_compute; reflexivity|]). vm_compute; reflexivity.
Qed.
Print Assumptions C58_which_refuted.

(** A struct before the beginning of the buffer: which() says 0. *)
Theorem C58_negative_refuted : exists r o, loads r = Ok (Some o) /\ c_loads r = Ok (Some o) /\
  o_which o 0 = Err IndexError /\ c_o_which o 0 = Ok 0.
Proof.
  exists (frame [le_enc 8 (w_struct (-3) 1 0)]). eexists. repeat (split; [vm_compute; reflexivity|]). vm_compute; reflexivity.
Qed.
Print Assumptions C58_negative_refuted.

(** The public read methods of a segment, near the end of the 64-bit range. *)
Theorem C58_overflow_refuted : forall s off, blen (sbuf s) < 2 ^ 60 -> 2 ^ 63 - 8 <= off < 2 ^ 63 ->
  c_read_primitive s off Fq = Err MemFault /\ read_primitive s off Fq = Err IndexError.
Proof.
  intros s off B Ho. pose proof (blen_nonneg (sbuf s)). split.
  - unfold c_read_primitive, c_check_bounds. cbn [fsize].
    assert (c_add off 8 < 0).
    { unfold c_add. pose proof (wrap64_mod (off + 8)). pose proof (wrap64_range (off + 8)). lia. }
    replace (_ || _) with false by lia. cbn [bind]. unfold CRead.c_load. cbn [fsize].
    replace (_ && _) with false by lia. reflexivity.
  - destruct (read_primitive_cases s off Fq) as [(z & _ & _ & X)|E]; [cbn [fsize] in X; lia|exact E].
Qed.
Print Assumptions C58_overflow_refuted.

(** * C59: loading *)
Theorem C59_loads : forall r x, loads r = Ok x -> blen r < 2 ^ 31 -> c_loads r = Ok x.
Proof. exact loads_agree. Qed.
Print Assumptions C59_loads.

Theorem C59_file : forall f x rest, load bytes file_read f = (Ok x, rest) -> blen f < 2 ^ 31 ->
  c_load bytes file_read f = (Ok x, rest).
Proof. exact load_file_agree. Qed.
Print Assumptions C59_file.
Example C59_ex : exists o, loads ex58 = Ok (Some o) /\ c_loads ex58 = Ok (Some o) /\
  c_load bytes file_read (ex58 ++ [x00]) = (Ok (Some o), [x00]).
Proof. eexists. repeat (split; [vm_compute; reflexivity|]). vm_compute; reflexivity. Qed.

(** Exactly what else is accepted: a header of one segment whose size in
    bytes is right modulo 2^32. *)
Theorem C59_loads_only : forall r x, c_loads r = Ok x -> blen r < 2 ^ 31 - 16 ->
  (exists segs pad, frameable segs /\ pad_ok pad segs /\ r = frame_with pad segs /\ opens segs x) \/
  (exists u body, r = le_enc 4 0 ++ le_enc 4 u ++ body /\ 2 ^ 28 <= u < 2 ^ 32 /\ u * 8 mod 2 ^ 32 = blen body /\
     opens [body] x).
Proof. intros r x H B. exact (c_loads_inv r B x H). Qed.
Print Assumptions C59_loads_only.

Theorem C59_file_only : forall f x rest, c_load bytes file_read f = (Ok x, rest) -> blen f < 2 ^ 60 ->
  (exists segs pad, frameable segs /\ pad_ok pad segs /\ f = frame_with pad segs ++ rest /\ opens segs x) \/
  (exists u body, f = le_enc 4 0 ++ le_enc 4 u ++ body ++ rest /\ 2 ^ 28 <= u < 2 ^ 32 /\
     (if u * 8 mod 2 ^ 32 <? 2 ^ 31 then blen body = u * 8 mod 2 ^ 32 else rest = []) /\ opens [body] x).
Proof. exact load_file_inv. Qed.
Print Assumptions C59_file_only.

(** The check of C09 fails in the compiled library: every message of one
    segment is accepted when its header promises any multiple of 4 GiB more
    than there is. *)
Theorem C59_truncated_refuted : forall body k x,
  blen body mod 8 = 0 -> blen body < 2 ^ 31 - 16 -> 1 <= k < 8 ->
  c_loads (frame [body]) = Ok x ->
  c_loads (le_enc 4 0 ++ le_enc 4 (blen body / 8 + k * 2 ^ 29) ++ body) = Ok x /\
  loads (le_enc 4 0 ++ le_enc 4 (blen body / 8 + k * 2 ^ 29) ++ body) = Err ValueError.
Proof.
  intros body k x M B Hk L. pose proof (blen_nonneg body).
  assert (F : frame [body] = le_enc 4 0 ++ le_enc 4 (blen body / 8) ++ body).
  { unfold frame. change (blen [body] - 1) with 0. change (Z.even (blen [body])) with false. cbn [map concat].
    rewrite !app_nil_r. reflexivity. }
  rewrite F in L. rewrite c_loads_wrap in L by lia.
  split; [rewrite c_loads_wrap; [exact L|lia| |lia]|apply loads_short; lia].
  replace ((blen body / 8 + k * 2 ^ 29) * 8) with (blen body + k * 2 ^ 32) by lia.
  rewrite Z.mod_add by lia. apply Z.mod_small. lia.
Qed.
Print Assumptions C59_truncated_refuted.

(** From a file it is enough that the header promises between 2 and 4 GiB:
    the number is negative, read() takes all there is. *)
Theorem C59_file_refuted : forall body u x,
  2 ^ 28 <= u < 2 ^ 29 -> blen body mod 8 = 0 -> blen body < 2 ^ 31 - 16 ->
  c_loads (frame [body]) = Ok x ->
  c_load bytes file_read (le_enc 4 0 ++ le_enc 4 u ++ body) = (Ok x, []) /\
  exists rest, load bytes file_read (le_enc 4 0 ++ le_enc 4 u ++ body) = (Err ValueError, rest).
Proof.
  intros body u x U M B L. pose proof (blen_nonneg body).
  assert (F : frame [body] = le_enc 4 0 ++ le_enc 4 (blen body / 8) ++ body).
  { unfold frame. change (blen [body] - 1) with 0. change (Z.even (blen [body])) with false. cbn [map concat].
    rewrite !app_nil_r. reflexivity. }
  rewrite F in L. rewrite c_loads_wrap in L by lia.
  split; [rewrite c_load_file_wrap, L by lia; reflexivity|apply load_file_short; lia].
Qed.
Print Assumptions C59_file_refuted.
Example C59_refuted_ex : exists o,
  c_loads (frame [le_enc 8 (w_struct 0 1 0) ++ le_enc 8 7]) = Ok (Some o) /\ o_read_primitive o 0 Fq = Ok 7.
Proof. eexists. split; [vm_compute; reflexivity|]. vm_compute; reflexivity. Qed.

(** A root pointer which leads outside of the message: no object instead of
    an error. *)
Theorem C59_root_refuted : exists r, loads r = Err IndexError /\ c_loads r = Ok None.
Proof. exists (frame [le_enc 8 (w_far 0 100 1); zeros 8]). split; vm_compute; reflexivity. Qed.
Print Assumptions C59_root_refuted.

(** * C60: dumping *)
Theorem C60_is_compact : forall fuel o b, long_obj o -> o_off o mod 8 = 0 ->
  o_is_compact fuel o = Ok b -> c_o_is_compact fuel o = Ok b.
Proof. exact is_compact_agree. Qed.
Print Assumptions C60_is_compact.

Theorem C60_dumps : forall junk fuel o d vs fp m,
  obj_den o d vs -> aligned o -> limv (VStruct d vs) ->
  16 + blen (content (VStruct d vs)) <= 2 ^ 32 -> (2 * vdepth (VStruct d vs) <= fuel)%nat ->
  dumps fuel o fp = Ok m -> c_dumps junk fuel o fp = Ok m.
Proof. intros. eapply c_dumps_agree; eauto. Qed.
Print Assumptions C60_dumps.

(** What the compiled dumps() writes, the compiled loads() reads back. *)
Theorem C60_roundtrip : forall junk fuel o d vs (fp : bool),
  obj_den o d vs -> aligned o -> limv (VStruct d vs) ->
  16 + blen (content (VStruct d vs)) <= 2 ^ 32 -> (2 * vdepth (VStruct d vs) <= fuel)%nat ->
  (fp = true -> noslack (VStruct d vs) /\ 0 < o_ds o + o_ps o) ->
  exists msg, c_dumps junk fuel o fp = Ok msg /\
    (blen msg < 2 ^ 31 -> exists o', c_loads msg = Ok (Some o') /\ obj_den o' d vs).
Proof.
  intros junk fuel o d vs fp O A L Hl Hf Hp.
  destruct (dumps_loads o d vs fuel fp O A L Hl Hf Hp) as (msg & o' & D & LO & OD).
  exists msg. split; [eapply c_dumps_agree; eauto|]. intros B. exists o'. split; [apply loads_agree; assumption|exact OD].
Qed.
Print Assumptions C60_roundtrip.
Example C60_ex : exists o m, loads ex58 = Ok (Some o) /\ dumps 20 o true = Ok m /\
  c_dumps (fun _ => xff) 20 o true = Ok m /\ c_dumps (fun _ => xff) 20 o false = Ok m.
Proof. eexists _, _. repeat (split; [vm_compute; reflexivity|]). vm_compute; reflexivity. Qed.

(** A capability pointer inside: the pure library refuses; in the compiled
    one the assertion is ignored, the end of the object is taken to be 0, and
    for an object at the beginning of the buffer what comes out is not a
    message. *)
Theorem C60_capability_refuted : exists r o m, loads r = Ok (Some o) /\
  dumps 10 o true = Err AssertionError /\
  (forall junk, c_dumps junk 10 o true = Ok m) /\ loads m = Err AssertionError /\ c_loads m = Err AssertionError.
Proof.
  exists (frame [le_enc 8 (w_struct (-1) 1 1) ++ le_enc 8 3]). eexists _, _.
  split; [vm_compute; reflexivity|]. split; [vm_compute; reflexivity|].
  split; [intros; vm_compute; reflexivity|]. split; vm_compute; reflexivity.
Qed.
Print Assumptions C60_capability_refuted.
