(** Property theorems C29-C34, C36, C45: the generated constructors and
    getters (pure-Python mode).

    Reading guide. A schema is a [struct_node]; [layout_ok] (CtorSpec.v) says
    that it is a layout that the capnp compiler can produce: fields lie inside
    of the sections, overlap only when they are members of the same union, and
    the names of fields and variables are distinct (the refutations below show
    what happens otherwise). [ctor fuel sn kw] is Cls( ** kw) of the generated
    class, [get_slot]/[get_group]/[get_nullable] are the properties obj.foo,
    [get_method] is obj.get_foo(), [has_slot] is obj.has_foo(), [which] is
    obj.which() as a number. [call_ok fuel fields kw vals]: the keyword
    arguments are names of fields with values of the right type; [vals n] is
    the wire value of the argument [n]; [fuel] is the recursion limit.
    [field_reads o u f x]: the property of [f] on [o] gives back [x], by type
    (a group: its fields one by one). *)
From Verif Require FloatBits.
From Verif Require Import Base Spec BaseFacts Ptr Segment SegmentFacts Builder Struct List Query StructFacts Enc
  CopyList ArgSpec CopyListFacts Ctor CtorSpec CtorCall CtorProps CtorSamples Samples EndofFacts CtorCompact.
From Coq Require Import String ZifyBool Sorting.Sorted.
From Coq Require Import Lists.List.
Local Notation length := Datatypes.length.
Open Scope string_scope.
Open Scope Z_scope.

(** ** C29: scalars *)

(** Everything at once: the constructor succeeds, and every field, at any
    depth of groups, reads back as its argument, or as the default of the
    schema; the sections of the object have the sizes of the schema *)
Theorem C29_constructor : forall fuel, (2 <= fuel)%nat -> forall sn, layout_ok sn -> forall kw vals,
  call_ok fuel (filter visible (sn_fields sn)) kw vals ->
  (length (members_given (filter visible (sn_fields sn)) kw) <= 1)%nat ->
  call_size sn kw vals <= 2 ^ 32 ->
  exists o d vs, ctor fuel sn kw = Ok o /\ obj_den o d vs /\
    blen d = 8 * sn_ds sn /\ blen vs = sn_ps sn /\
    scope_reads o (sn_utag sn) (sn_fields sn) (map (arg_for kw) (filter visible (sn_fields sn))).
Proof. exact ctor_ok. Qed.
Print Assumptions C29_constructor.

(** The same for integers, enums and floats, spelled out *)
Theorem C29_scalars : forall fuel, (2 <= fuel)%nat -> forall sn, layout_ok sn -> forall kw vals,
  call_ok fuel (filter visible (sn_fields sn)) kw vals ->
  (length (members_given (filter visible (sn_fields sn)) kw) <= 1)%nat ->
  call_size sn kw vals <= 2 ^ 32 ->
  exists o, ctor fuel sn kw = Ok o /\
  (forall n i dc fmt off ex d, In (FSlot n i dc (TPrim fmt) off ex d) (sn_fields sn) ->
     (forall x z, assoc kw n = Some x -> int_val fmt x z ->
        get_slot o (sn_utag sn) (FSlot n i dc (TPrim fmt) off ex d) = Ok (GInt z)) /\
     (assoc kw n = None -> dc = None ->
        get_slot o (sn_utag sn) (FSlot n i dc (TPrim fmt) off ex d) = Ok (GInt d))) /\
  (forall n i dc off ex d, In (FSlot n i dc TEnum off ex d) (sn_fields sn) ->
     (forall x z, assoc kw n = Some x -> int_val Fh x z ->
        get_slot o (sn_utag sn) (FSlot n i dc TEnum off ex d) = Ok (GInt z)) /\
     (assoc kw n = None -> dc = None ->
        get_slot o (sn_utag sn) (FSlot n i dc TEnum off ex d) = Ok (GInt d))) /\
  (forall n i dc off ex d x b, assoc kw n = Some x -> float_val x b ->
     (In (FSlot n i dc TFloat32 off ex d) (sn_fields sn) ->
        get_slot o (sn_utag sn) (FSlot n i dc TFloat32 off ex d) = Ok (GF32 (FloatBits.to32 b))) /\
     (In (FSlot n i dc TFloat64 off ex d) (sn_fields sn) ->
        get_slot o (sn_utag sn) (FSlot n i dc TFloat64 off ex d) = Ok (GF64 b))) /\
  (forall n i off ex d,
     (In (FSlot n i None TFloat32 off ex d) (sn_fields sn) -> assoc kw n = None ->
        get_slot o (sn_utag sn) (FSlot n i None TFloat32 off ex d) = Ok (GF32 0)) /\
     (In (FSlot n i None TFloat64 off ex d) (sn_fields sn) -> assoc kw n = None ->
        get_slot o (sn_utag sn) (FSlot n i None TFloat64 off ex d) = Ok (GF64 0))).
Proof. exact built_ints. Qed.
Print Assumptions C29_scalars.

(** The hypotheses hold of a struct with fields of every kind, and the getters
    give what the theorem says *)
Example C29_ex : layout_ok node /\ call_ok 4 (filter visible (sn_fields node)) kw1 vals1 /\
  (length (members_given (filter visible (sn_fields node)) kw1) <= 1)%nat /\ call_size node kw1 vals1 <= 2 ^ 32.
Proof. exact (conj node_ok (conj call1 (conj call1_members call1_size))). Qed.
Example C29_ex_run : match ctor 4 node kw1 with
  | Ok o => get_slot o (Some 8) fa = Ok (GInt 7) /\ get_slot o (Some 8) fe = Ok (GInt 2) /\
            get_slot o (Some 8) ff = Ok (GF64 0)
  | Err _ => False end.
Proof. vm_compute. repeat split. Qed.

(** An argument that is not a field *)
Theorem C29_unknown_keyword : forall fuel sn kw n x,
  In (n, x) kw -> ~ (exists f, In f (filter visible (sn_fields sn)) /\ f_name f = n) ->
  ctor fuel sn kw = Err TypeError.
Proof. exact ctor_unknown. Qed.
Print Assumptions C29_unknown_keyword.
Example C29_unknown_ex : ctor 4 node [("a", PInt 7); ("nope", PInt 1)] = Err TypeError.
Proof. vm_compute. reflexivity. Qed.

(** An integer which does not fit the field is refused, whatever the rest *)
Theorem C29_out_of_range_refused : forall f buf i z,
  ~ in_fmt f z -> write_scalar (WInt f) buf i (PInt z) = Err StructError.
Proof.
  intros f buf i z N. cbn [write_scalar as_int bind]. unfold b_write, pack_into.
  destruct (in_fmtb f z) eqn:E; [|reflexivity].
  exfalso. apply N. apply in_fmtb_iff. exact E.
Qed.
Print Assumptions C29_out_of_range_refused.

(** Floats with an explicit default: neither the constructor nor the getter
    work ([^] on floats is a TypeError), with or without an argument *)
Definition float_node : struct_node := mksn 1 0 None [FSlot "x" 0 None TFloat64 0 true 4611686018427387904].
Theorem C29_float_default_refuted :
  ctor 4 float_node [] = Err TypeError /\
  ctor 4 float_node [("x", PFloat 0)] = Err TypeError /\
  forall d, blen d = 8 ->
    get_slot {| o_seg := {| sbuf := d; soffs := None |}; o_off := 0; o_ptrs := 8; o_ds := 1; o_ps := 0 |} None
             (FSlot "x" 0 None TFloat64 0 true 4611686018427387904) = Err TypeError.
Proof.
  split; [vm_compute; reflexivity|]. split; [vm_compute; reflexivity|].
  intros d D. do 8 (destruct d as [|? d]; [exfalso; unfold blen in D; cbn [length] in D; lia|]).
  destruct d; [|exfalso; unfold blen in D; cbn [length] in D; lia]. reflexivity.
Qed.
Print Assumptions C29_float_default_refuted.

(** A field named pos: the argument is overwritten by the generated code *)
Definition pos_node : struct_node := mksn 2 0 None [FSlot "pos" 0 None (TPrim Fq) 0 false 0; FSlot "x" 1 None (TPrim Fq) 1 false 0].
Theorem C29_pos_refuted : match ctor 4 pos_node [("pos", PInt 7); ("x", PInt 3)] with
  | Ok o => get_slot o None (FSlot "pos" 0 None (TPrim Fq) 0 false 0) = Ok (GInt 0)
  | Err _ => False end.
Proof. vm_compute. reflexivity. Qed.
Print Assumptions C29_pos_refuted.

(** A field named builder: the argument is replaced by the builder, which is not
    a number *)
Definition builder_node : struct_node := mksn 1 0 None [FSlot "builder" 0 None (TPrim Fq) 0 false 0].
Theorem C29_builder_refuted : ctor 4 builder_node [("builder", PInt 7)] = Err StructError.
Proof. vm_compute. reflexivity. Qed.
Print Assumptions C29_builder_refuted.

(** A field named self, or a field named cls in a struct with a union: the
    module cannot be loaded *)
Definition self_node : struct_node := mksn 1 0 None [FSlot "self" 0 None (TPrim Fq) 0 false 0].
Definition cls_node : struct_node :=
  mksn 2 0 (Some 4) [FSlot "cls" 0 None (TPrim Fq) 0 false 0; FSlot "a" 1 (Some 0) TVoid 0 false 0; FSlot "b" 2 (Some 1) TVoid 0 false 0].
Theorem C29_self_refuted : (forall fuel kw x, ctor fuel self_node [("self", PInt x)] = Err SyntaxError /\
    ctor fuel self_node [] = Err SyntaxError /\ (forall o, ctor fuel self_node kw <> Ok o)) /\
  (forall fuel kw o, ctor fuel cls_node kw <> Ok o).
Proof.
  split; [intros fuel kw x; split; [reflexivity|split; [reflexivity|]]|intros fuel kw]; intros o; unfold ctor; destruct (bind_args _ _ _); discriminate.
Qed.
Print Assumptions C29_self_refuted.

(** A group [position] with a field [x] beside a field [position_x]: the
    variables coincide, the argument of the second one is lost *)
Definition clash_node : struct_node :=
  mksn 2 0 None [FGroup "position" 0 None false None [FSlot "x" 0 None (TPrim Fq) 0 false 0];
                 FSlot "position_x" 1 None (TPrim Fq) 1 false 0].
Theorem C29_group_name_clash_refuted :
  match ctor 4 clash_node [("position", PSeq [PInt 5]); ("position_x", PInt 9)] with
  | Ok o => get_slot o None (FSlot "position_x" 1 None (TPrim Fq) 1 false 0) = Ok (GInt 5)
  | Err _ => False end.
Proof. vm_compute. reflexivity. Qed.
Print Assumptions C29_group_name_clash_refuted.

(** Enum values and discriminants from 2^15 are refused although they are
    16-bit unsigned numbers on the wire *)
Definition enum_node : struct_node := mksn 1 0 None [FSlot "e" 0 None TEnum 0 false 0].
Theorem C29_big_enum_refuted : ctor 4 enum_node [("e", PInt 32768)] = Err StructError.
Proof. vm_compute. reflexivity. Qed.
Print Assumptions C29_big_enum_refuted.

(** ** C30: bools *)
Theorem C30_bools : forall fuel, (2 <= fuel)%nat -> forall sn, layout_ok sn -> forall kw vals,
  call_ok fuel (filter visible (sn_fields sn)) kw vals ->
  (length (members_given (filter visible (sn_fields sn)) kw) <= 1)%nat ->
  call_size sn kw vals <= 2 ^ 32 ->
  exists o, ctor fuel sn kw = Ok o /\
  (forall n i dc off ex d, In (FSlot n i dc TBool off ex d) (sn_fields sn) ->
     (forall x b, assoc kw n = Some x -> bool_val x b ->
        get_slot o (sn_utag sn) (FSlot n i dc TBool off ex d) = Ok (GBool b)) /\
     (assoc kw n = None -> dc = None ->
        get_slot o (sn_utag sn) (FSlot n i dc TBool off ex d) = Ok (GBool (d =? 1)))).
Proof. exact built_bools. Qed.
Print Assumptions C30_bools.
Example C30_ex : match ctor 4 node kw1 with
  | Ok o => get_slot o (Some 8) fb = Ok (GBool true) /\ get_slot o (Some 8) fc = Ok (GBool true)
  | Err _ => False end.
Proof. vm_compute. split; reflexivity. Qed.
Example C30_ex2 : match ctor 4 node [("b", PBool false)] with
  | Ok o => get_slot o (Some 8) fb = Ok (GBool false) /\ get_slot o (Some 8) fc = Ok (GBool false)
  | Err _ => False end.
Proof. vm_compute. split; reflexivity. Qed.

(** An int which is not 0 or 1 is accepted and sets the bit of a neighbour *)
Definition bool_node : struct_node := mksn 1 0 None [FSlot "a" 0 None TBool 0 false 0; FSlot "b" 1 None TBool 1 false 0].
Theorem C30_non_bool_refuted : match ctor 4 bool_node [("a", PInt 2); ("b", PBool false)] with
  | Ok o => get_slot o None (FSlot "a" 0 None TBool 0 false 0) = Ok (GBool false) /\
            get_slot o None (FSlot "b" 1 None TBool 1 false 0) = Ok (GBool true)
  | Err _ => False end.
Proof. vm_compute. split; reflexivity. Qed.
Print Assumptions C30_non_bool_refuted.

(** ** C31: text, data, structs; C36: lists *)
Theorem C31_pointers : forall fuel, (2 <= fuel)%nat -> forall sn, layout_ok sn -> forall kw vals,
  call_ok fuel (filter visible (sn_fields sn)) kw vals ->
  (length (members_given (filter visible (sn_fields sn)) kw) <= 1)%nat ->
  call_size sn kw vals <= 2 ^ 32 ->
  exists o, ctor fuel sn kw = Ok o /\
  (forall f, In f (sn_fields sn) ->
     match f with
     | FSlot n i dc TText off ex d | FSlot n i dc TData off ex d =>
         (forall b, assoc kw n = Some (PBytes b) -> get_slot o (sn_utag sn) f = Ok (GBytes b)) /\
         (assoc kw n = Some PNone \/ (assoc kw n = None /\ dc = None) -> get_slot o (sn_utag sn) f = Ok GNone)
     | FSlot n i dc TStruct off ex d =>
         (forall x, assoc kw n = Some (PObj x) ->
            exists o', get_slot o (sn_utag sn) f = Ok (GObj o') /\ same_struct x o') /\
         (assoc kw n = Some PNone \/ (assoc kw n = None /\ dc = None) -> get_slot o (sn_utag sn) f = Ok GNone)
     | FSlot n i dc (TList it) off ex d =>
         (forall x, assoc kw n = Some x -> x <> PNone ->
            exists l, get_slot o (sn_utag sn) f = Ok (GList l) /\ same_list it x l) /\
         (assoc kw n = Some PNone \/ (assoc kw n = None /\ dc = None) -> get_slot o (sn_utag sn) f = Ok GNone)
     | _ => True
     end).
Proof. exact built_ptrs. Qed.
Print Assumptions C31_pointers.
Example C31_ex : match ctor 4 node kw1 with
  | Ok o => get_slot o (Some 8) ft = Ok (GBytes abc) /\
            match get_slot o (Some 8) fs_ with
            | Ok (GObj s) => o_read_primitive s 0 Fq = Ok 5
            | _ => False end
  | Err _ => False end.
Proof. vm_compute. split; reflexivity. Qed.

(** A struct with an AnyPointer field cannot be constructed at all *)
Definition any_node : struct_node := mksn 1 1 None [FSlot "x" 0 None (TPrim Fq) 0 false 0; FSlot "p" 1 None TAny 0 false 0].
Theorem C31_anypointer_refuted : forall v, ctor 4 any_node [("x", PInt 3); ("p", v)] = Err NotImplementedError.
Proof. intros v. vm_compute. reflexivity. Qed.
Print Assumptions C31_anypointer_refuted.

(** C36, for one list field of any object *)
Theorem C36_lists : forall fuel, (2 <= fuel)%nat -> forall sn, layout_ok sn -> forall kw vals,
  call_ok fuel (filter visible (sn_fields sn)) kw vals ->
  (length (members_given (filter visible (sn_fields sn)) kw) <= 1)%nat ->
  call_size sn kw vals <= 2 ^ 32 ->
  forall n i dc it off ex d x, In (FSlot n i dc (TList it) off ex d) (sn_fields sn) ->
  assoc kw n = Some x -> x <> PNone ->
  exists o l, ctor fuel sn kw = Ok o /\
    get_slot o (sn_utag sn) (FSlot n i dc (TList it) off ex d) = Ok (GList l) /\
    same_list it x l.
Proof.
  intros fuel Hf sn L kw vals C M SZ n i dc it off ex d x I A NX.
  destruct (built_ptrs fuel Hf sn L kw vals C M SZ) as (o & E & H).
  destruct (proj1 (H _ I) x A NX) as (l & G & S). exists o, l. auto.
Qed.
Print Assumptions C36_lists.
Example C36_ex : match ctor 4 node kw1 with
  | Ok o => match get_slot o (Some 8) fl with
            | Ok (GList l) => l_count l = 2 /\ l_getitem l 0 = Ok (IInt 1) /\ l_getitem l 1 = Ok (IInt (-2))
            | _ => False end
  | Err _ => False end.
Proof. vm_compute. repeat split. Qed.

(** Lists of bool cannot be written *)
Definition blist_node : struct_node := mksn 0 1 None [FSlot "l" 0 None (TList ITBool) 0 false 0].
Theorem C36_bool_list_refuted :
  ctor 4 blist_node [("l", PSeq [PBool true])] = Err NotImplementedError.
Proof. vm_compute. reflexivity. Qed.
Print Assumptions C36_bool_list_refuted.

(** None inside of a list of lists reads back as an empty list *)
Definition nest_field := FSlot "l" 0 None (TList (ITList (ITPrim Fq))) 0 false 0.
Definition nest_node : struct_node := mksn 0 1 None [nest_field].
Theorem C36_nested_none_refuted : match ctor 10 nest_node [("l", PSeq [PNone])] with
  | Ok o => match get_slot o None nest_field with
            | Ok (GList l) => match l_getitem l 0 with Ok (IList l') => l_count l' = 0 | _ => False end
            | _ => False end
  | Err _ => False end.
Proof. vm_compute. reflexivity. Qed.
Print Assumptions C36_nested_none_refuted.

(** ** C32: unions *)
Theorem C32_one_member : forall fuel, (2 <= fuel)%nat -> forall sn, layout_ok sn -> forall kw vals,
  call_ok fuel (filter visible (sn_fields sn)) kw vals ->
  (length (members_given (filter visible (sn_fields sn)) kw) <= 1)%nat ->
  call_size sn kw vals <= 2 ^ 32 ->
  sn_utag sn <> None ->
  exists o, ctor fuel sn kw = Ok o /\
  (members_given (filter visible (sn_fields sn)) kw = [] -> which o (sn_utag sn) = Ok 0) /\
  (forall f d x, In f (sn_fields sn) -> f_disc f = Some d -> assoc kw (f_name f) = Some x ->
     which o (sn_utag sn) = Ok d /\ field_reads o (sn_utag sn) f x /\
     (forall g, In g (sn_fields sn) -> is_member g = true -> f_name g <> f_name f ->
        get_slot o (sn_utag sn) g = Err (match g with FSlot _ _ _ _ _ _ _ => ValueError | _ => TypeError end) /\
        get_group o (sn_utag sn) g = Err ValueError)).
Proof. exact built_union. Qed.
Print Assumptions C32_one_member.
Example C32_ex : match ctor 4 node kw1 with
  | Ok o => which o (Some 8) = Ok 1 /\ get_slot o (Some 8) fy = Ok (GBytes abc) /\ get_slot o (Some 8) fx = Err ValueError
  | Err _ => False end.
Proof. vm_compute. repeat split. Qed.

(** Two members of the same union, at top level or in a group at any depth *)
Theorem C32_two_members : forall fuel, (2 <= fuel)%nat -> forall sn, layout_ok sn -> forall kw vals,
  call_valid fuel (filter visible (sn_fields sn)) kw vals ->
  call_size sn kw vals <= 2 ^ 32 ->
  (2 <= length (members_given (filter visible (sn_fields sn)) kw))%nat \/
  (exists f x, In f (filter visible (sn_fields sn)) /\ assoc kw (f_name f) = Some x /\ two_members f x) ->
  ctor fuel sn kw = Err TypeError.
Proof. intros fuel Hf sn L kw vals C S T. exact (proj1 (ctor_two fuel Hf sn L kw vals C S T)). Qed.
Print Assumptions C32_two_members.
Example C32_two_ex : exists vals, call_valid 4 (filter visible (sn_fields node)) [("x", PInt 1); ("z", PNone)] vals /\
  call_size node [("x", PInt 1); ("z", PNone)] vals <= 2 ^ 32 /\
  (2 <= length (members_given (filter visible (sn_fields node)) [("x", PInt 1); ("z", PNone)]))%nat.
Proof.
  exists (fun _ => []). split; [|split; [vm_compute; discriminate|vm_compute; lia]]. constructor.
  - intros n x [E|[E|[]]]; injection E as <- <-; [exists fx|exists fz]; split; try reflexivity; cbn; tauto.
  - intros f x I. change (filter visible (sn_fields node)) with (sn_fields node) in I. cbn [node sn_fields In] in I.
    decompose [or] I; try contradiction; subst f; cbn; intros E; try discriminate E; injection E as <-;
      (split; [intros _; discriminate|]); [|reflexivity].
    split; [exists 1; split; [left; reflexivity|unfold in_fmt; cbn; lia]|reflexivity].
  - intros f I. change (filter visible (sn_fields node)) with (sn_fields node) in I. cbn [node sn_fields In] in I.
    decompose [or] I; try contradiction; subst f; cbn; intros E; try discriminate E; intros D; try discriminate D; try discriminate; repeat split; discriminate.
Qed.

(** Cls.new_foo( ** kw) *)
Theorem C32_new_foo : forall fuel, (2 <= fuel)%nat -> forall sn, layout_ok sn -> forall kw vals tag dd,
  In tag (filter visible (sn_fields sn)) -> f_disc tag = Some dd ->
  (forall f, In f (filter visible (sn_fields sn)) -> no_key (f_name tag, f_order tag) f) ->
  call_ok fuel (filter (fun f => negb (is_member f) || String.eqb (f_name f) (f_name tag))
                  (filter visible (sn_fields sn))) kw vals ->
  (assoc kw (f_name tag) = None -> has_default tag) ->
  call_size sn kw vals <= 2 ^ 32 ->
  exists o d vs, ctor_union fuel sn tag kw = Ok o /\ obj_den o d vs /\
    blen d = 8 * sn_ds sn /\ blen vs = sn_ps sn /\
    which o (sn_utag sn) = Ok dd /\
    scope_reads o (sn_utag sn) (sn_fields sn) (map (new_arg kw tag) (filter visible (sn_fields sn))).
Proof. exact new_ok. Qed.
Print Assumptions C32_new_foo.
Example C32_new_ex : match ctor_union 4 node fz [("a", PInt 9)] with
  | Ok o => which o (Some 8) = Ok 2 /\ get_slot o (Some 8) fa = Ok (GInt 9) /\ get_slot o (Some 8) fz = Ok GNone
  | Err _ => False end.
Proof. vm_compute. repeat split. Qed.
Example C32_new_ex2 : match ctor_union 4 node fx [] with
  | Ok o => which o (Some 8) = Ok 0 /\ get_slot o (Some 8) fx = Ok (GInt 0)
  | Err _ => False end.
Proof. vm_compute. repeat split. Qed.
Example C32_new_ex3 : In fy (filter visible (sn_fields node)) /\
  (forall f, In f (filter visible (sn_fields node)) -> no_key (f_name fy, f_order fy) f).
Proof.
  split; [cbn; tauto|]. intros f I. change (filter visible (sn_fields node)) with (sn_fields node) in I. cbn [node sn_fields In] in I.
  decompose [or] I; try contradiction; subst f; cbn; tauto.
Qed.

(** A group named anonymous with a union, beside an anonymous union: the two
    share the variable of the current tag, one member of each is refused *)
Definition anon_node : struct_node := mksn 2 0 (Some 0)
  [FSlot "x" 0 (Some 0) (TPrim Fh) 1 false 0; FSlot "y" 1 (Some 1) (TPrim Fh) 1 false 0;
   FGroup "anonymous" 2 None false (Some 4) [FSlot "p" 0 (Some 0) (TPrim Fh) 5 false 0; FSlot "q" 1 (Some 1) (TPrim Fh) 5 false 0]].
Theorem C32_anonymous_refuted :
  ctor 4 anon_node [("x", PInt 1); ("anonymous", PSeq [PInt 2; PUndef])] = Err TypeError.
Proof. vm_compute. reflexivity. Qed.
Print Assumptions C32_anonymous_refuted.

(** new_foo() where a group has a union with a member of the same name and
    codeOrder (the members of a union must be slots foo at the same place of
    the two declarations): the nested member is set too *)
Definition force_node : struct_node := mksn 2 0 (Some 0)
  [FSlot "x" 0 (Some 0) (TPrim Fh) 1 false 0; FSlot "y" 1 (Some 1) (TPrim Fh) 1 false 0;
   FGroup "g" 2 None false (Some 4) [FSlot "p" 0 (Some 0) (TPrim Fh) 5 false 0; FSlot "y" 1 (Some 1) (TPrim Fh) 5 false 0]].
Theorem C32_new_foo_nested_refuted :
  match ctor_union 4 force_node (FSlot "y" 1 (Some 1) (TPrim Fh) 1 false 0) [("y", PInt 3)] with
  | Ok o => o_which o 8 = Ok 1 (* the union of the group: the first member was expected *)
  | Err _ => False end.
Proof. vm_compute. reflexivity. Qed.
Print Assumptions C32_new_foo_nested_refuted.

(** ** C33: nullable fields *)
Theorem C33_nullable : forall fuel, (2 <= fuel)%nat -> forall sn, layout_ok sn -> forall kw vals,
  call_ok fuel (filter visible (sn_fields sn)) kw vals ->
  (length (members_given (filter visible (sn_fields sn)) kw) <= 1)%nat ->
  call_size sn kw vals <= 2 ^ 32 ->
  exists o, ctor fuel sn kw = Ok o /\
  (forall n i dc u gs, In (FGroup n i dc true u gs) (sn_fields sn) ->
     (assoc kw n = Some PNone -> get_nullable o (sn_utag sn) (FGroup n i dc true u gs) = Ok GNone) /\
     (forall x, assoc kw n = Some x -> x <> PNone ->
        exists g, get_nullable o (sn_utag sn) (FGroup n i dc true u gs) = Ok g /\ g <> GNone /\
          match value_type gs with
          | TPrim f => exists z, int_val f x z /\ g = GInt z
          | TEnum => exists z, int_val Fh x z /\ g = GInt z
          | TBool => exists b, bool_val x b /\ g = GBool b
          | TFloat32 => exists b, float_val x b /\ g = GF32 (FloatBits.to32 b)
          | TFloat64 => exists b, float_val x b /\ g = GF64 b
          | _ => False
          end) /\
     (assoc kw n = None -> dc = None -> forall n1 i1 c1 t1 off1 ex1 d1 r, gs = FSlot n1 i1 c1 t1 off1 ex1 d1 :: r ->
        (d1 <> 0 -> get_nullable o (sn_utag sn) (FGroup n i dc true u gs) = Ok GNone) /\
        (d1 = 0 -> exists g, get_nullable o (sn_utag sn) (FGroup n i dc true u gs) = Ok g /\ g <> GNone))).
Proof. exact built_nullable. Qed.
Print Assumptions C33_nullable.
Example C33_ex : match ctor 4 node kw1, ctor 4 node [("n", PNone)] with
  | Ok o, Ok o' => get_nullable o (Some 8) fn = Ok (GInt 0) /\ get_nullable o' (Some 8) fn = Ok GNone
  | _, _ => False end.
Proof. vm_compute. split; reflexivity. Qed.

(** With convert_case=False the child is called isNull, but the generated code
    uses is_null: NameError from the constructor, AttributeError from the
    getter *)
Definition case_group := FGroup "n" 0 None true None
  [FSlot "isNull" 0 None (TPrim FB) 0 false 0; FSlot "value" 1 None (TPrim Fi) 1 false 0].
Definition case_node : struct_node := mksn 1 0 None [case_group].
Theorem C33_convert_case_refuted :
  ctor 4 case_node [("n", PInt 3)] = Err NameError /\
  get_nullable {| o_seg := {| sbuf := zeros 8; soffs := None |}; o_off := 0; o_ptrs := 8; o_ds := 1; o_ps := 0 |} None case_group
    = Err AttributeError.
Proof. split; vm_compute; reflexivity. Qed.
Print Assumptions C33_convert_case_refuted.

(** A nullable field x beside a field x_value: the second argument is lost *)
Definition nclash_node : struct_node := mksn 2 0 None
  [FGroup "x" 0 None true None [FSlot "is_null" 0 None (TPrim FB) 0 false 0; FSlot "value" 1 None (TPrim Fi) 1 false 0];
   FSlot "x_value" 1 None (TPrim Fi) 2 false 0].
Theorem C33_name_clash_refuted : match ctor 4 nclash_node [("x", PInt 3); ("x_value", PInt 8)] with
  | Ok o => get_slot o None (FSlot "x_value" 1 None (TPrim Fi) 2 false 0) = Ok (GInt 3)
  | Err _ => False end.
Proof. vm_compute. reflexivity. Qed.
Print Assumptions C33_name_clash_refuted.

(** ** C34: has_foo() and get_foo() *)
Theorem C34_has : forall o d vs u n i dc t off ex dd g,
  obj_den o d vs -> 0 <= off -> ty_pointer t = true ->
  get_slot o u (FSlot n i dc t off ex dd) = Ok g ->
  exists b, has_slot o off = Ok b /\ (b = false <-> g = GNone).
Proof. exact has_getter. Qed.
Print Assumptions C34_has.

(** Whatever the bytes of the object. [empty_of]: b'', a list without items, a
    struct object without data and pointers *)
Theorem C34_get : forall o u n i dc t off ex dd g,
  t = TText \/ t = TData \/ t = TStruct \/ (exists it, t = TList it) ->
  get_slot o u (FSlot n i dc t off ex dd) = Ok g ->
  exists g', get_method o u (FSlot n i dc t off ex dd) = Ok g' /\
    (g <> GNone -> g' = g) /\ (g = GNone -> empty_of t g').
Proof. exact get_spec. Qed.
Print Assumptions C34_get.

(** The empty struct: every field has its default *)
Theorem C34_empty_struct : forall e n i t off ex d,
  obj_den e [] [] -> slot_ok 65536 65536 t off ex d ->
  get_slot e None (FSlot n i None t off ex d) = Ok
    match t with
    | TPrim _ | TEnum => GInt d
    | TBool => GBool (d =? 1)
    | TFloat32 => GF32 0
    | TFloat64 => GF64 0
    | _ => GNone
    end.
Proof. exact empty_struct_reads. Qed.
Print Assumptions C34_empty_struct.

Example C34_ex : match ctor 4 node kw1 with
  | Ok o => has_slot o 0 = Ok true /\ get_method o (Some 8) ft = Ok (GBytes abc) /\ get_slot o (Some 8) ft = Ok (GBytes abc)
  | Err _ => False end.
Proof. vm_compute. repeat split. Qed.
Example C34_ex2 : match ctor 4 node [] with
  | Ok o => has_slot o 0 = Ok false /\ get_method o (Some 8) ft = Ok (GBytes []) /\ get_slot o (Some 8) ft = Ok GNone
  | Err _ => False end.
Proof. vm_compute. repeat split. Qed.

(** Neither has_foo() nor get_foo() of a text look at the union: for the object
    with another member set they do not raise ValueError as foo does, and
    has_foo() says True when the members share the pointer *)
Definition share_node : struct_node := mksn 1 1 (Some 0)
  [FSlot "x" 0 (Some 0) TText 0 false 0; FSlot "y" 1 (Some 1) TText 0 false 0].
Theorem C34_union_refuted : match ctor 4 share_node [("y", PBytes abc)] with
  | Ok o => get_slot o (Some 0) (FSlot "x" 0 (Some 0) TText 0 false 0) = Err ValueError /\
            has_slot o 0 = Ok true /\
            get_method o (Some 0) (FSlot "x" 0 (Some 0) TText 0 false 0) = Ok (GBytes abc)
  | Err _ => False end.
Proof. vm_compute. repeat split. Qed.
Print Assumptions C34_union_refuted.

(** ** C45: duplicate names *)
Theorem C45_duplicates : forall sn,
  ~ NoDup (map f_name (filter visible (sn_fields sn))) <-> gen sn = Err ValueError.
Proof. exact gen_dup. Qed.
Print Assumptions C45_duplicates.
Example C45_ex : gen (mksn 2 0 None [FSlot "x" 0 None (TPrim Fq) 0 false 0; FSlot "x" 1 None (TPrim Fq) 1 false 0]) = Err ValueError
  /\ exists l, gen node = Ok l.
Proof. split; [reflexivity|]. eexists. vm_compute. reflexivity. Qed.

(** A group with void fields only, at any depth: the module cannot be loaded
    ([visible]: not void) *)
Inductive hollow : field -> Prop :=
| hollow_here : forall n o dc u fs, (forall g, In g fs -> visible g = false) -> hollow (FGroup n o dc false u fs)
| hollow_in : forall n o dc nl u fs g, In g fs -> visible g = true -> hollow g -> hollow (FGroup n o dc nl u fs).
Lemma hollow_parses f : hollow f -> parses f = false.
Proof.
  induction 1 as [n o dc u fs H|n o dc nl u fs g J V H IH]; cbn [parses].
  - replace (existsb visible fs) with false; [reflexivity|]. symmetry. apply not_true_is_false. intros E.
    apply existsb_exists in E as (g & J & E). rewrite (H g J) in E. discriminate.
  - apply andb_false_intro2. induction fs as [|h fs IHf]; [contradiction|]. destruct J as [->|J].
    + now rewrite V, IH.
    + rewrite (IHf J). apply andb_false_r.
Qed.
Theorem C45_void_group : forall sn f, In f (sn_fields sn) -> visible f = true -> hollow f ->
  (NoDup (map f_name (filter visible (sn_fields sn))) -> gen sn = Err SyntaxError) /\
  forall l, gen sn <> Ok l.
Proof.
  intros sn f J V H.
  assert (P : forallb parses (filter visible (sn_fields sn)) = false).
  { apply not_true_is_false. intros E. rewrite forallb_forall in E. specialize (E f). rewrite (hollow_parses f H) in E.
    discriminate E. apply filter_In. auto. }
  unfold gen. rewrite P. cbn [andb]. split.
  - intros N. rewrite nodup_fixed_point by exact N. destruct (list_eq_dec _ _ _); [reflexivity|contradiction].
  - intros l. destruct (if list_eq_dec _ _ _ then true else false); discriminate.
Qed.
Print Assumptions C45_void_group.
Definition void_node : struct_node := mksn 1 0 None [FGroup "g" 0 None false None [FSlot "v" 0 None TVoid 0 false 0]].
Theorem C45_void_group_refuted : gen void_node = Err SyntaxError.
Proof. reflexivity. Qed.
Print Assumptions C45_void_group_refuted.

(** ** C20: constructors give compact objects *)

(** There are no gaps and nothing is stored twice: the size of the buffer is
    the one of the sections plus the one of the arguments, whatever the order *)
Theorem C20_ctor_no_gaps : forall fuel, (2 <= fuel)%nat -> forall sn, layout_ok sn -> forall kw vals,
  call_ok fuel (filter visible (sn_fields sn)) kw vals ->
  (length (members_given (filter visible (sn_fields sn)) kw) <= 1)%nat ->
  call_size sn kw vals <= 2 ^ 32 ->
  exists o, ctor fuel sn kw = Ok o /\ o_off o = 0 /\ soffs (o_seg o) = None /\
    slen (o_seg o) = call_size sn kw vals.
Proof. exact ctor_no_gaps. Qed.
Print Assumptions C20_ctor_no_gaps.

(** [slots_of ptr_slots fields args] lists the pointer slots that the arguments
    fill, in the order of the fields. When it is increasing, the buffer is the
    canonical encoding of the value, byte by byte; and _is_compact() says so,
    unless there is an empty struct or a struct list with unused words in the
    arguments ([packed], see C20_compact_is_compact_refuted). *)
Theorem C20_ctor_is_compact : forall fuel, (2 <= fuel)%nat -> forall sn, layout_ok sn -> forall kw vals,
  call_ok fuel (filter visible (sn_fields sn)) kw vals ->
  (length (members_given (filter visible (sn_fields sn)) kw) <= 1)%nat ->
  call_size sn kw vals <= 2 ^ 32 ->
  StronglySorted Z.lt (slots_of ptr_slots (sn_fields sn) (map (arg_for kw) (filter visible (sn_fields sn)))) ->
  exists o d vs, ctor fuel sn kw = Ok o /\ obj_den o d vs /\
    scope_reads o (sn_utag sn) (sn_fields sn) (map (arg_for kw) (filter visible (sn_fields sn))) /\
    sbuf (o_seg o) = content (VStruct d vs) /\
    ((forall f x v, In f (filter visible (sn_fields sn)) -> assoc kw (f_name f) = Some x -> In v (vals (f_name f)) -> packed v) ->
     forall fuel', (vdepth (VStruct d vs) <= fuel')%nat ->
       o_get_end fuel' o = Ok (slen (o_seg o)) /\ o_is_compact fuel' o = Ok true).
Proof. exact ctor_compact. Qed.
Print Assumptions C20_ctor_is_compact.

(** new_foo() *)
Theorem C20_new_is_compact : forall fuel, (2 <= fuel)%nat -> forall sn, layout_ok sn -> forall kw vals tag dd,
  In tag (filter visible (sn_fields sn)) -> f_disc tag = Some dd ->
  (forall f, In f (filter visible (sn_fields sn)) -> no_key (f_name tag, f_order tag) f) ->
  call_ok fuel (filter (fun f => negb (is_member f) || String.eqb (f_name f) (f_name tag))
                  (filter visible (sn_fields sn))) kw vals ->
  (assoc kw (f_name tag) = None -> has_default tag) ->
  call_size sn kw vals <= 2 ^ 32 ->
  StronglySorted Z.lt (slots_of ptr_slots (sn_fields sn) (map (new_arg kw tag) (filter visible (sn_fields sn)))) ->
  exists o d vs, ctor_union fuel sn tag kw = Ok o /\ obj_den o d vs /\
    scope_reads o (sn_utag sn) (sn_fields sn) (map (new_arg kw tag) (filter visible (sn_fields sn))) /\
    sbuf (o_seg o) = content (VStruct d vs) /\
    ((forall f x v, In f (filter visible (sn_fields sn)) -> assoc kw (f_name f) = Some x -> In v (vals (f_name f)) -> packed v) ->
     forall fuel', (vdepth (VStruct d vs) <= fuel')%nat ->
       o_get_end fuel' o = Ok (slen (o_seg o)) /\ o_is_compact fuel' o = Ok true).
Proof. exact new_compact. Qed.
Print Assumptions C20_new_is_compact.

(** For a struct without groups and unions the order is the one of the schema *)
Theorem C20_plain_slots : forall fs xs, length xs = length fs ->
  Forall (fun f => match f with FSlot _ _ None t _ _ _ => t <> TVoid | _ => False end) fs ->
  slots_of ptr_slots fs xs =
  flat_map (fun f => match f with FSlot _ _ _ t off _ _ => if ty_pointer t then [off] else [] | _ => [] end) fs.
Proof. exact plain_slots. Qed.
Print Assumptions C20_plain_slots.

Example C20_ctor_ex : layout_ok node /\ call_ok 4 (filter visible (sn_fields node)) kw1 vals1 /\
  slots_of ptr_slots (sn_fields node) (map (arg_for kw1) (filter visible (sn_fields node))) = [0; 1; 2; 3] /\
  StronglySorted Z.lt [0; 1; 2; 3] /\
  match ctor 4 node kw1 with Ok o => o_is_compact 4 o = Ok true /\ slen (o_seg o) = 64 + 8 + 8 + 8 + 8 | Err _ => False end.
Proof.
  split; [exact node_ok|]. split; [exact call1|]. split; [vm_compute; reflexivity|].
  split; [repeat constructor; lia|]. vm_compute. split; reflexivity.
Qed.

(** The members of a union share their pointer: union { a @0 :Text; b @2 :Text; } c @1 :Text.
    c is written before b although its pointer comes after, and the
    object is not compact *)
Definition order_node : struct_node := mksn 1 2 (Some 0)
  [FSlot "a" 0 (Some 0) TText 0 false 0; FSlot "c" 1 None TText 1 false 0; FSlot "b" 2 (Some 1) TText 0 false 0].
Theorem C20_ctor_order_refuted :
  match ctor 4 order_node [("c", PBytes abc); ("b", PBytes abc)] with
  | Ok o => get_slot o (Some 0) (FSlot "c" 1 None TText 1 false 0) = Ok (GBytes abc) /\
            get_slot o (Some 0) (FSlot "b" 2 (Some 1) TText 0 false 0) = Ok (GBytes abc) /\
            o_is_compact 4 o = Ok false
  | Err _ => False end.
Proof. vm_compute. repeat split. Qed.
Print Assumptions C20_ctor_order_refuted.
