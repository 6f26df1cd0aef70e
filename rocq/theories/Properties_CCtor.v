(** Property theorems C74: the constructors of a compiled (PYX mode) schema.

    [ctor fuel sn kw] and [ctor_union fuel sn tag kw] are Cls( ** kw) and
    Cls.new_foo( ** kw) of a class generated in pure-Python mode (Ctor.v);
    [c_ctor junk trunc fuel sn kw] and [c_ctor_union junk trunc fuel sn tag kw]
    are the same calls when the module is compiled by Cython and runs on the
    compiled builder (CCopyList.v, BuilderC.v). [junk] is whatever memory the
    allocator returns, [trunc] what Cython does with a float given for an
    integer: the theorems hold for all of them. [MemFault] is an access outside
    of the allocated memory. The hypotheses are those of C29 and C32
    (Properties_Ctor.v). *)
From Verif Require FloatBits.
From Verif Require Import Base Spec BaseFacts Ptr Segment SegmentFacts Builder Struct List Query StructFacts Enc
  CopyList ArgSpec CopyListFacts Ctor CtorSpec CtorCall CtorProps CtorSamples Samples EndofFacts BuilderC CRead CCopyList FloatSpec FloatFacts.
From Coq Require Import String ZifyBool.
From Coq Require Import Lists.List.
Local Notation length := Datatypes.length.
Open Scope string_scope.
Open Scope Z_scope.

(** ** Correct calls: the same object, byte for byte *)
Theorem C74_same_object : forall fuel, (2 <= fuel)%nat -> forall sn, layout_ok sn -> forall kw vals,
  call_ok fuel (filter visible (sn_fields sn)) kw vals ->
  (length (members_given (filter visible (sn_fields sn)) kw) <= 1)%nat ->
  call_size sn kw vals <= 2 ^ 32 ->
  exists o, ctor fuel sn kw = Ok o /\ forall junk trunc, c_ctor junk trunc fuel sn kw = Ok o.
Proof.
  intros fuel Hf sn L kw vals C M HS. destruct (ctor_made fuel Hf sn L kw vals C M HS) as (o & d & vs & E & _ & _ & _ & _ & _ & X).
  exists o. auto.
Qed.
Print Assumptions C74_same_object.
(** the hypotheses are met by a call which gives an int, a bool, an enum, a
    text, a list, a struct, a member of the union, a group and a nullable *)
Example C74_ex : layout_ok node /\ call_ok 4 (filter visible (sn_fields node)) kw1 vals1 /\
  (length (members_given (filter visible (sn_fields node)) kw1) <= 1)%nat /\ call_size node kw1 vals1 <= 2 ^ 32.
Proof. exact (conj node_ok (conj call1 (conj call1_members call1_size))). Qed.
Example C74_ex2 : c_ctor (fun _ => xff) (fun _ => Err TypeError) 4 node kw1 = ctor 4 node kw1 /\
  match ctor 4 node kw1 with Ok o => blen (sbuf (o_seg o)) = 96 | Err _ => False end.
Proof. vm_compute. split; reflexivity. Qed.

Theorem C74_new_foo : forall fuel, (2 <= fuel)%nat -> forall sn, layout_ok sn -> forall kw vals tag dd,
  In tag (filter visible (sn_fields sn)) -> f_disc tag = Some dd ->
  (forall f, In f (filter visible (sn_fields sn)) -> no_key (f_name tag, f_order tag) f) ->
  call_ok fuel (filter (fun f => negb (is_member f) || String.eqb (f_name f) (f_name tag))
                  (filter visible (sn_fields sn))) kw vals ->
  (assoc kw (f_name tag) = None -> has_default tag) ->
  call_size sn kw vals <= 2 ^ 32 ->
  exists o, ctor_union fuel sn tag kw = Ok o /\ forall junk trunc, c_ctor_union junk trunc fuel sn tag kw = Ok o.
Proof.
  intros fuel Hf sn L kw vals tag dd HT HD NK C HDT HS.
  destruct (new_made fuel Hf sn L kw vals tag dd HT HD NK C HDT HS) as (o & d & vs & E & _ & _ & _ & _ & _ & _ & X).
  exists o. auto.
Qed.
Print Assumptions C74_new_foo.
Example C74_new_ex : match c_ctor_union (fun _ => xff) (fun _ => Err TypeError) 4 node fz [("a", PInt 9)] with
  | Ok o => which o (Some 8) = Ok 2 /\ get_slot o (Some 8) fa = Ok (GInt 9) /\ get_slot o (Some 8) fz = Ok GNone
  | Err _ => False end.
Proof. vm_compute. repeat split. Qed.

(** ** Refused calls *)

(** Two members of the same union, at top level or in a group at any depth *)
Theorem C74_two_members : forall fuel, (2 <= fuel)%nat -> forall sn, layout_ok sn -> forall kw vals,
  call_valid fuel (filter visible (sn_fields sn)) kw vals ->
  call_size sn kw vals <= 2 ^ 32 ->
  (2 <= length (members_given (filter visible (sn_fields sn)) kw))%nat \/
  (exists f x, In f (filter visible (sn_fields sn)) /\ assoc kw (f_name f) = Some x /\ two_members f x) ->
  forall junk trunc, c_ctor junk trunc fuel sn kw = Err TypeError.
Proof. intros fuel Hf sn L kw vals C S T. exact (proj2 (ctor_two fuel Hf sn L kw vals C S T)). Qed.
Print Assumptions C74_two_members.
Example C74_two_ex : c_ctor (fun _ => xff) (fun _ => Err TypeError) 4 node [("x", PInt 1); ("z", PNone)] = Err TypeError /\
  c_ctor (fun _ => xff) (fun _ => Err TypeError) 4 node [("g", PSeq [PInt 1; PNone; PInt 0])] = Err TypeError.
Proof. vm_compute. split; reflexivity. Qed.

(** A keyword which is not the name of a field *)
Theorem C74_unknown_keyword : forall junk trunc fuel sn kw n x,
  In (n, x) kw -> ~ In n (map f_name (filter visible (sn_fields sn))) ->
  c_ctor junk trunc fuel sn kw = Err TypeError.
Proof.
  intros junk trunc fuel sn kw n x I N. unfold c_ctor, bind_args.
  destruct (forallb _ kw) eqn:E; [|reflexivity]. exfalso. rewrite forallb_forall in E. specialize (E _ I). cbn [fst] in E.
  rewrite existsb_exists in E. destruct E as (m & Im & X). apply String.eqb_eq in X. subst m. contradiction.
Qed.
Print Assumptions C74_unknown_keyword.
Example C74_unknown_ex : c_ctor (fun _ => xff) (fun _ => Err TypeError) 4 node [("a", PInt 7); ("nope", PInt 1)] = Err TypeError.
Proof. vm_compute. reflexivity. Qed.

(** An integer which does not fit the field: OverflowError, where pure-Python
    mode has struct.error (C29_out_of_range_refused) *)
Theorem C74_out_of_range_refused : forall trunc f st i z,
  ~ in_fmt f z -> c_wint trunc f st i (PInt z) = Err OverflowError.
Proof.
  intros trunc f st i z N. unfold c_wint. cbn [c_as_int bind]. unfold c_write.
  destruct (in_fmtb f z) eqn:E; [|reflexivity]. exfalso. apply N. apply in_fmtb_iff. exact E.
Qed.
Print Assumptions C74_out_of_range_refused.
Example C74_range_ex : c_ctor (fun _ => xff) (fun _ => Err TypeError) 4 node [("a", PInt (2 ^ 31 + 42))] = Err OverflowError /\
  ctor 4 node [("a", PInt (2 ^ 31 + 42))] = Err StructError.
Proof. vm_compute. split; reflexivity. Qed.

(** A float field given an int which is too large for a double: OverflowError
    (pure-Python mode: struct.error, C73_integers). Given anything which is not
    a number: TypeError *)
Theorem C74_float_refused : forall dbl st i,
  (forall z, overflow64 <= Z.abs z * 2 ^ 1074 -> c_wfloat dbl st i (PInt z) = Err OverflowError) /\
  (forall x, (forall b, x <> PFloat b) -> (forall z, x <> PInt z) -> (forall b, x <> PBool b) -> c_wfloat dbl st i x = Err TypeError).
Proof.
  intros dbl st i. split.
  - intros z O. assert (S := int_to64_spec z).
    assert (AZ : Z.abs (z * 2 ^ 1074) = Z.abs z * 2 ^ 1074).
    { rewrite Z.abs_mul, (Z.abs_eq (2 ^ 1074)); [reflexivity|]. apply Z.pow_nonneg. lia. }
    rewrite AZ in S. unfold c_wfloat. cbn [as_float]. destruct (FloatBits.int_to64 z) as [b|]; [exfalso; lia|reflexivity].
  - intros x N1 N2 N3. destruct x; try reflexivity; exfalso; first [exact (N1 _ eq_refl)|exact (N2 _ eq_refl)|exact (N3 _ eq_refl)].
Qed.
Print Assumptions C74_float_refused.
Example C74_float_ex : c_ctor (fun _ => xff) (fun _ => Err TypeError) 4 (mksn 1 0 None [FSlot "f" 0 None TFloat64 0 false 0]) [("f", PInt (2 ^ 1024))] = Err OverflowError /\
  c_ctor (fun _ => xff) (fun _ => Err TypeError) 4 (mksn 1 0 None [FSlot "f" 0 None TFloat32 0 false 0]) [("f", PBytes abc)] = Err TypeError.
Proof. vm_compute. split; reflexivity. Qed.

(** ** Where the two modes differ *)

(** A bool field takes the truth value of its argument: no other field is
    touched (C30_non_bool_refuted). But for a field whose default is True the xor
    with the default is computed first, on the argument as it is: 2 ^ True is 3,
    its truth value is stored, and the field reads back as False *)
Definition bfa := FSlot "a" 0 None TBool 0 false 0.
Definition bfb := FSlot "b" 1 None TBool 1 true 1.
Definition btrue_node : struct_node := mksn 1 0 None [bfa; bfb].
Theorem C74_bool_truth_refuted : forall junk trunc,
  (match c_ctor junk trunc 4 btrue_node [("a", PInt 2)] with
   | Ok o => get_slot o None bfa = Ok (GBool true) /\ get_slot o None bfb = Ok (GBool true)
   | Err _ => False end) /\
  (match c_ctor junk trunc 4 btrue_node [("b", PInt 2)] with
   | Ok o => get_slot o None bfa = Ok (GBool false) /\ get_slot o None bfb = Ok (GBool false)
   | Err _ => False end) /\
  (match c_ctor junk trunc 4 btrue_node [("a", PBytes abc)] with
   | Ok o => get_slot o None bfa = Ok (GBool true)
   | Err _ => False end) /\
  ctor 4 btrue_node [("a", PBytes abc)] = Err TypeError.
Proof. intros junk trunc. vm_compute. repeat split. Qed.
Print Assumptions C74_bool_truth_refuted.

(** The statement of the write of a bool, for every integer and every field:
    only the bit of the field can change, and it is set unless the integer is 0 *)
Theorem C74_bool_write : forall st byteoff bitoff (x : Z) v (e : env) junk trunc fuel, 0 <= byteoff < blen (cb_mem st) -> 0 <= bitoff < 8 ->
  e "builder" = Some PBuilder -> e v = Some (PInt x) ->
  exists st', c_exec_stmt junk trunc fuel (SWriteBool byteoff bitoff v) (e, st) = Ok (e, st') /\
    blen (cb_mem st') = blen (cb_mem st) /\
    forall i j, 0 <= i < blen (cb_mem st) -> 0 <= j < 8 ->
      Z.testbit (bZ (getb (cb_mem st') i)) j =
      Z.testbit (bZ (getb (cb_mem st) i)) j || ((i =? byteoff) && (j =? bitoff) && negb (x =? 0)).
Proof.
  intros st byo bio x v e junk trunc fuel Hi Hj Eb Ev.
  set (c := getb (cb_mem st) byo). set (b := negb (x =? 0)). set (y := Z.lor (bZ c) (Z.shiftl (Z.b2z b) bio)).
  assert (RD : fdec FB (sub (cb_mem st) byo 1) = bZ c).
  { rewrite sub_one by lia. unfold fdec. cbn [fsigned le_dec]. fold c. lia. }
  exists {| cb_mem := upd (cb_mem st) byo (fenc FB (y mod 256)); cb_end := cb_end st |}. split; [|split].
  - cbn [c_exec_stmt]. unfold the_builder, lookup. rewrite Eb. cbn [bind]. rewrite Ev. cbn [bind c_truth].
    unfold c_write_bool. replace ((0 <=? byo) && (byo + 1 <=? blen (cb_mem st))) with true by (symmetry; lia).
    rewrite RD. fold b. fold y. unfold c_store. rewrite blen_fenc. cbn [fsize].
    replace ((0 <=? byo) && (byo + 1 <=? blen (cb_mem st))) with true by (symmetry; lia). reflexivity.
  - cbn [cb_mem]. apply blen_upd; rewrite ?blen_fenc; cbn [fsize]; lia.
  - intros i j Ii Ij. cbn [cb_mem]. rewrite getb_upd by (rewrite ?blen_fenc; cbn [fsize]; lia). rewrite blen_fenc. cbn [fsize].
    destruct (Z.eqb_spec i byo) as [->|N].
    + replace ((byo <=? byo) && (byo <? byo + 1)) with true by (symmetry; lia). rewrite Z.sub_diag.
      change (getb (fenc FB (y mod 256)) 0) with (Zb (y mod 256)). rewrite bZ_Zb, Z.mod_mod by lia.
      change 256 with (2 ^ 8). rewrite Z.mod_pow2_bits_low by lia. unfold y. rewrite Z.lor_spec, Z.shiftl_spec by lia. fold c. fold b. f_equal.
      destruct (Z.eqb_spec j bio) as [->|N].
      * rewrite Z.sub_diag. destruct b; reflexivity.
      * cbn [andb]. destruct (Z.ltb_spec j bio); [apply Z.testbit_neg_r; lia|].
        destruct b; cbn [Z.b2z]; [|apply Z.testbit_0_l]. change 1 with (2 ^ 0). apply Z.pow2_bits_false. lia.
    + replace ((byo <=? i) && (i <? byo + 1)) with false by (symmetry; lia). cbn [andb]. rewrite Bool.orb_false_r. reflexivity.
Qed.
Print Assumptions C74_bool_write.
Example C74_bool_write_ex : 0 <= 3 < blen (cb_mem (c_init 512)) /\ setv (setv (fun _ => None) "builder" PBuilder) "x" (PInt 6) "builder" = Some PBuilder.
Proof. vm_compute. repeat split; discriminate. Qed.

(** A field named pos or builder: the Cython compiler refuses the module (the
    variables have a C type), whatever the call. In pure-Python mode the module
    loads and the argument is lost (C29_pos_refuted, C29_builder_refuted) *)
Theorem C74_reserved_names_refuted : forall junk trunc fuel sn kw,
  In "pos" (map f_name (filter visible (sn_fields sn))) \/ In "builder" (map f_name (filter visible (sn_fields sn))) ->
  forall o, c_ctor junk trunc fuel sn kw <> Ok o.
Proof.
  intros junk trunc fuel sn kw H o E. unfold c_ctor in E.
  destruct (bind_args _ _ kw) as [xs|]; [|discriminate E]. cbn [bind] in E. unfold c_run_new in E.
  destruct (gen sn); [|discriminate E]. cbn [bind] in E.
  assert (X : existsb (fun n => String.eqb n "builder" || String.eqb n "pos") (map f_name (filter visible (sn_fields sn))) = true).
  { apply existsb_exists. destruct H as [H|H]; [exists "pos"|exists "builder"]; split; auto. }
  rewrite X in E. discriminate E.
Qed.
Print Assumptions C74_reserved_names_refuted.

(** A list of structs is allocated with the size of the struct in the schema of
    the list; an item with larger sections (built by another version of the
    schema, see C36) is copied over what follows, and past the end of the memory
    of the builder: an object of 100 words given for an item of 1 word. In
    pure-Python mode the buffer grows *)
Definition inl_node : struct_node := mksn 0 1 None [FSlot "l" 0 None (TList (ITStruct 1 0)) 0 false 0].
Definition wide : obj := {| o_seg := {| sbuf := zeros 800; soffs := None |}; o_off := 0; o_ptrs := 800; o_ds := 100; o_ps := 0 |}.
Theorem C74_inline_overflow_refuted : forall junk trunc,
  c_ctor junk trunc 4 inl_node [("l", PSeq [PObj wide])] = Err MemFault /\
  exists o, ctor 4 inl_node [("l", PSeq [PObj wide])] = Ok o.
Proof. intros junk trunc. split; [vm_compute; reflexivity|]. eexists. vm_compute. reflexivity. Qed.
Print Assumptions C74_inline_overflow_refuted.
