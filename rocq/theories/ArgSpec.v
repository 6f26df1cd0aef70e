(** Specification: which wire value the arguments given to a constructor
    stand for, and when what is read back is "the same" as what was given. *)
From Verif Require FloatBits.
From Verif Require Import Base Spec Ptr Segment Struct List Query Enc CopyList.

(** A struct argument: an object of the right class with the value, in a
    word-aligned buffer of at most 4 GB *)
Definition obj_val (o : obj) (d : bytes) (vs : list value) : Prop :=
  obj_den o d vs /\ o_off o mod 8 = 0 /\ slen (o_seg o) mod 8 = 0 /\ slen (o_seg o) <= 2 ^ 32.

(** text: a NUL is added; data: nothing is added *)
Definition text_value (nul : bool) (b : bytes) : value :=
  if nul then VList 2 (blen b + 1) (b ++ [x00]) else VList 2 (blen b) b.

Definition text_val (nul : bool) (x : pyval) (v : value) : Prop :=
  match x with
  | PNone => v = VNull
  | PBytes b => v = text_value nul b
  | _ => False
  end.

Definition struct_val (x : pyval) (v : value) : Prop :=
  match x with
  | PNone => v = VNull
  | PObj o => exists d vs, obj_val o d vs /\ v = VStruct d vs
  | _ => False
  end.

Definition int_val (f : ifmt) (x : pyval) (z : Z) : Prop :=
  (x = PInt z \/ exists b, x = PBool b /\ z = Z.b2z b) /\ in_fmt f z.

(** [float_val x b]: the argument [x] is a float with the bits [b], or an int
    which Python converts to the float with the bits [b] (the nearest one:
    FloatFacts.int_to64_spec, and the theorems C73) *)
Definition float_val (x : pyval) (b : Z) : Prop := as_float x = Some b /\ in_fmt FQ b.

(** what is stored: the bits of the double, or of its conversion to a C float
    (the nearest one: FloatFacts.to32_nearest, and the theorems C73) *)
Definition float_bits (dbl : bool) (b : Z) : Z := if dbl then b else FloatBits.to32 b.

(** [list_val t x v]: the sequence [x] of items of type [t] is stored as [v].
    Lists of bool cannot be stored; struct items must have exactly the sizes
    of the schema (the sizes and the count must fit the tag word, which is
    written as a signed number). *)
Fixpoint list_val (t : itype) (x : pyval) (v : value) : Prop :=
  (x = PNone /\ v = VNull) \/
  exists items, py_len x = Ok (blen items) /\ py_iter x = Ok items /\
    match t with
    | ITVoid => v = VList 0 (blen items) []
    | ITBool => False
    | ITPrim f =>
        exists zs, Forall2 (int_val f) items zs /\
          v = VList (tag_of f) (blen items) (concat (map (fenc f) zs))
    | ITFloat dbl =>
        exists bs, Forall2 float_val items bs /\
          v = VList (if dbl then 5 else 4) (blen items) (concat (map (fun b => le_enc (if dbl then 8 else 4) (float_bits dbl b)) bs))
    | ITStruct ds ps =>
        0 <= ds < 2 ^ 16 /\ 0 <= ps < 2 ^ 15 /\ blen items < 2 ^ 29 /\
        exists its, Forall2 (fun x it => exists o, x = PObj o /\ obj_val o (fst it) (snd it) /\
                                           o_ds o = ds /\ o_ps o = ps) items its /\
          v = VComp ds ps its []
    | ITText add => (add = 0 \/ add = -1) /\
        exists vs, Forall2 (text_val (negb (add =? 0))) items vs /\ v = VPtrs vs
    | ITList t' => exists vs, Forall2 (list_val t') items vs /\ v = VPtrs vs
    end.

(** Two struct objects have the same value *)
Definition same_struct (o o' : obj) : Prop := exists d vs, obj_den o d vs /\ obj_den o' d vs.

(** [same_list t x l]: the capnpy list [l] has the length and the items of
    the Python object [x] (a sequence, or None: an empty list) *)
Fixpoint same_list (t : itype) (x : pyval) (l : lobj) : Prop :=
  (x = PNone /\ l_count l = 0) \/
  exists items, py_iter x = Ok items /\ l_count l = blen items /\
    forall i x, nth_error items i = Some x ->
      match t with
      | ITVoid => l_getitem l (Z.of_nat i) = Ok INone
      | ITBool => exists b, x = PBool b /\ l_getitem l (Z.of_nat i) = Ok (IBool b)
      | ITPrim f => exists z, as_int x = Ok z /\ l_getitem l (Z.of_nat i) = Ok (IInt z)
      | ITFloat dbl => exists b, float_val x b /\ l_getitem l (Z.of_nat i) = Ok (IFloat dbl (float_bits dbl b))
      | ITStruct _ _ => exists o o', x = PObj o /\ l_getitem l (Z.of_nat i) = Ok (IObj o') /\ same_struct o o'
      | ITText _ => exists b, as_bytes x = Ok b /\ l_getitem l (Z.of_nat i) = Ok (IBytes b)
      | ITList t' => exists l', l_getitem l (Z.of_nat i) = Ok (IList l') /\ same_list t' x l'
      end.
