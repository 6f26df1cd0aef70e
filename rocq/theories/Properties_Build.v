(** Property theorems C26 and C46: the compiled builder. *)
From Verif Require Import Base Spec BaseFacts Ptr Segment Builder Copy Enc EncFacts CopyFrame BuilderC BuilderOps BuilderCFacts Samples CopyFinal.

(** C26. Any history of operations that stay within what was allocated
    ([all_fit], BuilderOps.v) returns the same values and builds the same
    bytes on the Python builder and on the compiled one, whatever the initial
    capacity, and whatever bytes realloc leaves in new memory; the compiled
    one never accesses memory outside of its allocation ([Ok]). *)
Theorem C26_builders_agree : forall fuel junk ops cap,
  all_fit fuel 0 ops -> 0 <= cap ->
  exists buf xs st,
    run (py_step fuel) ops [] = Ok (buf, xs) /\
    run (c_step fuel junk) ops (c_init cap) = Ok (st, xs) /\ c_as_string st = buf.
Proof. exact builders_agree. Qed.
Print Assumptions C26_builders_agree.
Definition ex_ops : list bop :=
  [OAllocate 8; OStruct 0 1 2; OWrite Fq 8 (-5); OBool 15 7 true; OText 16 (Some abc); OList 24 6 2 16; OData 40 (Some (zeros 1000));
   OText 48 None; OSlice 8 (zeros 4) 0 2].
Example C26_ex : all_fit 0 0 ex_ops /\
  (exists buf, run (py_step 0) ex_ops [] = Ok (buf, [0; 8; 0; 0; 32; 40; 56; -1; 0])).
Proof.
  split.
  - unfold ex_ops.
    repeat (eapply af_cons;
      [constructor; unfold in_fmt; repeat split; solve [vm_compute; reflexivity|vm_compute; discriminate]|]).
    apply af_nil.
  - destruct (run (py_step 0) ex_ops []) as [[b xs]|e] eqn:E; [|vm_compute in E; discriminate].
    exists b. replace xs with [0; 8; 0; 0; 32; 40; 56; -1; 0]; [reflexivity|].
    assert (X : match run (py_step 0) ex_ops [] with Ok (_, ys) => ys | Err _ => [] end = [0; 8; 0; 0; 32; 40; 56; -1; 0])
      by (vm_compute; reflexivity).
    rewrite E in X. symmetry. exact X.
Qed.

(** C46. In pure Python, whatever the bytes of the source, a copy changes
    nothing of what was in the builder except the destination pointer. *)
Theorem C46_python_frame : forall fuel s p pos dst dp dst',
  0 <= dp -> copy_pointer fuel s p pos dst dp = Ok dst' ->
  blen dst <= blen dst' /\
  forall i, 0 <= i < blen dst -> i < dp \/ dp + 8 <= i -> getb dst' i = getb dst i.
Proof. exact copy_pointer_frame. Qed.
Print Assumptions C46_python_frame.

(** For well-formed sources the compiled builder has no memory fault either:
    it is an instance of C26 with one copy. *)
Theorem C46_compiled_well_formed : forall fuel junk s p pos v cap,
  den s p pos v -> p <> 0 -> (p_kind p = 2 -> word_at s pos = Some p) -> limv v ->
  (2 * vdepth v <= fuel)%nat -> 8 + blen (content v) <= 2 ^ 32 -> blen (sbuf s) < 2 ^ 60 -> 0 <= cap ->
  exists buf xs st,
    run (py_step fuel) [OAllocate 8; OCopy s p pos 0] [] = Ok (buf, xs) /\
    run (c_step fuel junk) [OAllocate 8; OCopy s p pos 0] (c_init cap) = Ok (st, xs) /\ c_as_string st = buf.
Proof.
  intros fuel junk s p pos v cap D N W L F B BS C. apply builders_agree; [|exact C].
  eapply af_cons; [apply fit_allocate; lia|]. eapply af_cons; [|apply af_nil].
  eapply fit_copy with (v := v); try eassumption; try lia; reflexivity.
Qed.
Print Assumptions C46_compiled_well_formed.
Example C46_ex : exists p v, den {| sbuf := sample1; soffs := None |} p 0 v /\ p <> 0 /\ p_kind p <> 2 /\
  (2 * vdepth v <= 10)%nat /\ 8 + blen (content v) <= 2 ^ 32 /\ limv v.
Proof.
  destruct sample1_den as (p & W & D). exists p, (VStruct sample1_data sample1_ptrs).
  assert (E : p = match word_at {| sbuf := sample1; soffs := None |} 0 with Some p => p | None => 0 end) by (rewrite W; reflexivity).
  vm_compute in E. split; [exact D|]. subst p. split; [discriminate|]. split; [vm_compute; discriminate|].
  split; [vm_compute; lia|]. split; [vm_compute; discriminate|]. exact sample_lim.
Qed.

(** Hostile sources. A struct-list whose tag announces 100 items in a body of
    no words: the compiled copy writes past the end of its allocation (the
    Python one raises). *)
Definition evil_tag : seg :=
  {| sbuf := le_enc 8 (w_list 0 7 0) ++ le_enc 8 (w_struct 100 0 1) ++ zeros (99 * 8) ++ le_enc 8 (w_struct (-1) 0 0);
     soffs := None |}.
Theorem C46_heap_overflow_refuted : exists src p, forall junk,
  run (c_step 10 junk) [OAllocate 8; OCopy src p 0 0] (c_init 512) = Err MemFault /\
  run (py_step 10) [OAllocate 8; OCopy src p 0 0] [] = Err StructError.
Proof. exists evil_tag, (w_list 0 7 0). intros junk. split; vm_compute; reflexivity. Qed.
Print Assumptions C46_heap_overflow_refuted.
(** With fewer items the stray pointer lands in the spare capacity: the copy
    succeeds and the memory that the next allocation takes for zero is not. *)
Definition evil_tag2 : seg :=
  {| sbuf := le_enc 8 (w_list 0 7 0) ++ le_enc 8 (w_struct 3 0 1) ++ zeros (2 * 8) ++ le_enc 8 (w_struct (-1) 0 0);
     soffs := None |}.
Theorem C46_dirty_memory_refuted : exists src p, forall junk,
  exists st, run (c_step 10 junk) [OAllocate 8; OCopy src p 0 0; OAllocate 32] (c_init 512) = Ok (st, [0; 0; 16]) /\
  sub (c_as_string st) 16 32 <> zeros 32.
Proof.
  exists evil_tag2, (w_list 0 7 0). intros junk. eexists. split; [vm_compute; reflexivity|]. vm_compute. discriminate.
Qed.
Print Assumptions C46_dirty_memory_refuted.
(** A struct pointer with a negative offset: read_int64_fast reads before the
    beginning of the buffer (the Python code raises IndexError). *)
Definition evil_offset : seg := {| sbuf := le_enc 8 (w_struct (-10) 0 1); soffs := None |}.
Theorem C46_negative_offset_refuted : exists src p, forall junk,
  run (c_step 10 junk) [OAllocate 8; OCopy src p 0 0] (c_init 512) = Err MemFault /\
  run (py_step 10) [OAllocate 8; OCopy src p 0 0] [] = Err IndexError.
Proof. exists evil_offset, (w_struct (-10) 0 1). intros junk. split; vm_compute; reflexivity. Qed.
Print Assumptions C46_negative_offset_refuted.
