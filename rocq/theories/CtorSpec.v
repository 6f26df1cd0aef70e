(** Specification of the constructors: what a valid struct layout is, which
    arguments a constructor accepts, and what "every argument reads back"
    means. Nothing here mentions the generated statements. *)
From Verif Require FloatBits.
From Verif Require Import Base Spec Ptr Segment Builder Struct List Query Enc CopyList ArgSpec Ctor.
From Coq Require Import String.
Open Scope string_scope.
Open Scope Z_scope.

(** ** Layouts *)

(** A place of a struct: a bit of the data section, or a pointer *)
Inductive loc := LBit (i : Z) | LPtr (k : Z).

Definition bits (a n : Z) (l : loc) : Prop := exists i, l = LBit i /\ a <= i < a + n.

(** The places of a slot: offsets are in units of the size *)
Definition slot_region (t : ftype) (off : Z) (l : loc) : Prop :=
  match t with
  | TVoid => False
  | TBool => l = LBit off
  | TText | TData | TStruct | TList _ | TAny => l = LPtr off
  | TPrim f => bits (8 * (off * fsize f)) (8 * fsize f) l
  | TEnum => bits (16 * off) 16 l
  | TFloat32 => bits (32 * off) 32 l
  | TFloat64 => bits (64 * off) 64 l
  end.

(** The tag of a union, discriminantOffset [u] *)
Definition tag_region (u : option Z) (l : loc) : Prop :=
  match u with Some u => bits (16 * u) 16 l | None => False end.

(** "some field of the list", "every field of the list" *)
Definition some_of (P : field -> Prop) : list field -> Prop :=
  fix go l := match l with [] => False | f :: r => P f \/ go r end.
Definition all_of (P : field -> Prop) : list field -> Prop :=
  fix go l := match l with [] => True | f :: r => P f /\ go r end.

Fixpoint region (f : field) (l : loc) : Prop :=
  match f with
  | FSlot _ _ _ t off _ _ => slot_region t off l
  | FGroup _ _ _ _ u fs => tag_region u l \/ some_of (fun g => region g l) fs
  end.

Definition apart (f g : field) : Prop := forall l, region f l -> region g l -> False.

(** A slot lies in the sections, its default is a value of its type, and
    there is a default other than zero only if the schema gives one. Floats
    have no explicit default (see C29_float_default_refuted). *)
Definition slot_ok (ds ps : Z) (t : ftype) (off : Z) (explicit : bool) (d : Z) : Prop :=
  0 <= off /\ (explicit = false -> d = 0) /\
  match t with
  | TVoid => True
  | TBool => off < 64 * ds /\ (d = 0 \/ d = 1)
  | TPrim f => (off + 1) * fsize f <= 8 * ds /\ in_fmt f d
  | TEnum => (off + 1) * 2 <= 8 * ds /\ in_fmt Fh d
  | TFloat32 => (off + 1) * 4 <= 8 * ds /\ explicit = false
  | TFloat64 => (off + 1) * 8 <= 8 * ds /\ explicit = false
  | TText | TData | TStruct | TList _ | TAny => off < ps
  end.

(** The fields of a struct or of a group: two of them overlap only if both
    are members of the union, the tag overlaps nothing, the discriminants
    are distinct *)
Definition discs (fs : list field) : list Z :=
  flat_map (fun f => match f_disc f with Some d => [d] | None => [] end) fs.

Definition scope_ok (ds : Z) (u : option Z) (fs : list field) : Prop :=
  ForallOrdPairs (fun f g => (is_member f = true /\ is_member g = true) \/ apart f g) fs /\
  (forall u', u = Some u' -> 0 <= u' /\ 16 * u' + 16 <= 64 * ds) /\
  (u = None -> discs fs = []) /\
  (forall f l, In f fs -> tag_region u l -> region f l -> False) /\
  Forall (fun d => 0 <= d < 2 ^ 15) (discs fs) /\ NoDup (discs fs).

(** The shape of a $Py.nullable group *)
Definition scalar (t : ftype) : Prop :=
  match t with TPrim _ | TEnum | TBool | TFloat32 | TFloat64 => True | _ => False end.
Definition flag (t : ftype) : Prop := match t with TPrim _ | TBool => True | _ => False end.
Definition nullable_ok (fs : list field) : Prop :=
  exists o1 t1 off1 e1 d1 o2 t2 off2 e2 d2,
    fs = [FSlot "is_null" o1 None t1 off1 e1 d1; FSlot "value" o2 None t2 off2 e2 d2] /\
    flag t1 /\ scalar t2.

Fixpoint field_ok (ds ps : Z) (f : field) : Prop :=
  match f with
  | FSlot _ _ _ t off explicit d => slot_ok ds ps t off explicit d
  | FGroup _ _ _ nullable u fs =>
      scope_ok ds u fs /\ all_of (field_ok ds ps) fs /\
      (if nullable then f_name f <> "" /\ nullable_ok fs else existsb visible fs = true)
  end.

(** ** Names *)

(** The variables that the constructor uses for a field *)
Definition concat_of {A} (P : field -> list A) : list field -> list A :=
  fix go l := match l with [] => [] | f :: r => if visible f then P f ++ go r else go r end%list.
Fixpoint vars (prefix : string) (f : field) : list string :=
  let v := varname prefix (f_name f) in
  v :: match f with
       | FSlot _ _ _ _ _ _ _ => []
       | FGroup _ _ _ _ u fs =>
           (match u with Some _ => [curtag v] | None => [] end ++ concat_of (vars v) fs)%list
       end.

Record layout_ok (sn : struct_node) : Prop := {
  lo_ds : 0 <= sn_ds sn < 2 ^ 16;
  lo_ps : 0 <= sn_ps sn < 2 ^ 16;
  lo_scope : scope_ok (sn_ds sn) (sn_utag sn) (sn_fields sn);
  lo_fields : all_of (field_ok (sn_ds sn) (sn_ps sn)) (sn_fields sn);
  (* no two of the names coincide *)
  lo_names : NoDup ("builder" :: "pos" ::
    (match sn_utag sn with Some _ => [curtag "anonymous"] | None => [] end ++
     concat_of (vars "") (sn_fields sn))%list);
  (* no field is called self, nor cls if there is a union *)
  lo_params : forall f, In f (sn_fields sn) -> visible f = true ->
    f_name f <> "self" /\ (existsb is_member (sn_fields sn) = true -> f_name f <> "cls")
}.

(** ** Arguments *)

Definition bool_val (x : pyval) (b : bool) : Prop := x = PBool b \/ x = PInt (Z.b2z b).

(** [slot_arg fuel t x vs]: [x] is a valid argument for a slot of type [t],
    [vs] are the values that are stored out of line. [fuel] bounds the depth
    of the values (the model of the recursion of Python). *)
Definition slot_arg (fuel : nat) (t : ftype) (x : pyval) (vs : list value) : Prop :=
  match t with
  | TVoid => vs = []
  | TPrim f => (exists z, int_val f x z) /\ vs = []
  | TEnum => (exists z, int_val Fh x z) /\ vs = []
  | TBool => (exists b, bool_val x b) /\ vs = []
  | TFloat32 | TFloat64 =>
      (exists b, float_val x b) /\ vs = []
  | TText => exists v, vs = [v] /\ text_val true x v /\ limv v
  | TData => exists v, vs = [v] /\ text_val false x v /\ limv v
  | TStruct => exists v, vs = [v] /\ struct_val x v /\ limv v /\ (2 * vdepth v <= fuel)%nat
  | TList t => exists v, vs = [v] /\ list_val t x v /\ limv v /\ (2 * vdepth v <= fuel)%nat
  | TAny => False
  end.

(** The type of the value of a nullable group *)
Definition value_type (fs : list field) : ftype :=
  match fs with _ :: FSlot _ _ _ t _ _ _ :: _ => t | _ => TVoid end.

(** Fields and arguments, one by one; [vs]: as above, all together *)
Definition args_of (P : field -> pyval -> list value -> Prop) : list field -> list pyval -> list value -> Prop :=
  fix go fs xs vs :=
    match fs with
    | [] => xs = [] /\ vs = []
    | f :: r =>
        if visible f then
          exists x xs' v1 v2, xs = x :: xs' /\ vs = (v1 ++ v2)%list /\ go r xs' v2 /\
            ((is_member f = true /\ x = PUndef /\ v1 = []) \/
             ((is_member f = true -> x <> PUndef) /\ P f x v1))
        else go r xs vs
    end.

(** The discriminants of the members that are given *)
Fixpoint given (fs : list field) (xs : list pyval) : list Z :=
  match fs, xs with
  | [], _ => []
  | f :: r, xs =>
      if visible f then
        match xs with
        | [] => []
        | x :: xs' =>
            match f_disc f, x with
            | Some _, PUndef | None, _ => given r xs'
            | Some d, _ => d :: given r xs'
            end
        end
      else given r xs
  end.

(** A group takes a sequence with one argument per field; a nullable group
    takes None or a value; of a union at most one member is given *)
Fixpoint arg_ok (fuel : nat) (f : field) (x : pyval) (vs : list value) : Prop :=
  match f with
  | FSlot _ _ _ t _ _ _ => slot_arg fuel t x vs
  | FGroup _ _ _ true _ fs =>
      (x = PNone /\ vs = []) \/ (x <> PNone /\ slot_arg fuel (value_type fs) x vs)
  | FGroup _ _ _ false _ fs =>
      exists xs, py_iter x = Ok xs /\ args_of (arg_ok fuel) fs xs vs /\ (Datatypes.length (given fs xs) <= 1)%nat
  end.

Definition args_ok (fuel : nat) (fs : list field) (xs : list pyval) (vs : list value) : Prop :=
  args_of (arg_ok fuel) fs xs vs /\ (Datatypes.length (given fs xs) <= 1)%nat.

(** The same without the condition on the unions *)
Fixpoint arg_valid (fuel : nat) (f : field) (x : pyval) (vs : list value) : Prop :=
  match f with
  | FSlot _ _ _ t _ _ _ => slot_arg fuel t x vs
  | FGroup _ _ _ true _ fs =>
      (x = PNone /\ vs = []) \/ (x <> PNone /\ slot_arg fuel (value_type fs) x vs)
  | FGroup _ _ _ false _ fs =>
      exists xs, py_iter x = Ok xs /\ args_of (arg_valid fuel) fs xs vs
  end.

(** Some union, at any depth, is given two members *)
Definition some_arg (P : field -> pyval -> Prop) : list field -> list pyval -> Prop :=
  fix go fs xs :=
    match fs with
    | [] => False
    | f :: r =>
        if visible f then match xs with [] => False | x :: xs' => P f x \/ go r xs' end
        else go r xs
    end.
Fixpoint two_members (f : field) (x : pyval) : Prop :=
  match f with
  | FGroup _ _ _ false _ fs =>
      exists xs, py_iter x = Ok xs /\ ((2 <= Datatypes.length (given fs xs))%nat \/ some_arg two_members fs xs)
  | _ => False
  end.
Definition two_given (fs : list field) (xs : list pyval) : Prop :=
  (2 <= Datatypes.length (given fs xs))%nat \/ some_arg two_members fs xs.

(** The size of what is stored out of line *)
Definition out_size (vs : list value) : Z := fold_right (fun v n => blen (content v) + n) 0 vs.

(** The pointers that an argument fills, in the order of the fields (None
    fills its pointer with null) *)
Definition is_undef (x : pyval) : bool := match x with PUndef => true | _ => false end.
Definition slots_of (P : field -> pyval -> list Z) : list field -> list pyval -> list Z :=
  fix go fs xs :=
    match fs with
    | [] => []
    | f :: r =>
        if visible f then
          match xs with
          | [] => []
          | x :: xs' => ((if is_member f && is_undef x then [] else P f x) ++ go r xs')%list
          end
        else go r xs
    end.
Fixpoint ptr_slots (f : field) (x : pyval) : list Z :=
  match f with
  | FSlot _ _ _ t off _ _ => if ty_pointer t then [off] else []
  | FGroup _ _ _ true _ _ => []
  | FGroup _ _ _ false _ fs =>
      match py_iter x with Ok xs => slots_of ptr_slots fs xs | Err _ => [] end
  end.

(** ** Reading back *)

Definition slot_same (t : ftype) (x : pyval) (g : gval) : Prop :=
  match t with
  | TVoid => g = GNone
  | TPrim f => exists z, int_val f x z /\ g = GInt z
  | TEnum => exists z, int_val Fh x z /\ g = GInt z
  | TBool => exists b, bool_val x b /\ g = GBool b
  | TFloat32 => exists b, float_val x b /\ g = GF32 (FloatBits.to32 b)
  | TFloat64 => exists b, float_val x b /\ g = GF64 b
  | TText | TData => (x = PNone /\ g = GNone) \/ (exists b, x = PBytes b /\ g = GBytes b)
  | TStruct => (x = PNone /\ g = GNone) \/ (exists o o', x = PObj o /\ g = GObj o' /\ same_struct o o')
  | TList it => (x = PNone /\ g = GNone) \/ (x <> PNone /\ exists l, g = GList l /\ same_list it x l)
  | TAny => False
  end.

Definition reads_of (P : field -> pyval -> Prop) : list field -> list pyval -> Prop :=
  fix go fs xs :=
    match fs with
    | [] => True
    | f :: r =>
        if visible f then
          match xs with
          | [] => False
          | x :: xs' => (is_member f = true /\ x = PUndef \/ P f x) /\ go r xs'
          end
        else go r xs
    end.

(** The union of [o] has the given member, or the first one (discriminant 0)
    when none was given *)
Definition union_is (o : obj) (u : option Z) (fs : list field) (xs : list pyval) : Prop :=
  u <> None -> which o u = Ok (match given fs xs with [] => 0 | d :: _ => d end).

(** [field_reads o u f x]: the getter of [f] on [o] gives back [x] *)
Fixpoint field_reads (o : obj) (u : option Z) (f : field) (x : pyval) : Prop :=
  match f with
  | FSlot _ _ _ t _ _ _ => exists g, get_slot o u f = Ok g /\ slot_same t x g
  | FGroup _ _ _ true _ fs =>
      exists g, get_nullable o u f = Ok g /\
        ((x = PNone /\ g = GNone) \/ (x <> PNone /\ slot_same (value_type fs) x g))
  | FGroup _ _ _ false u' fs =>
      exists o', get_group o u f = Ok o' /\
      exists xs, py_iter x = Ok xs /\ reads_of (field_reads o' u') fs xs /\ union_is o' u' fs xs
  end.

Definition scope_reads (o : obj) (u : option Z) (fs : list field) (xs : list pyval) : Prop :=
  reads_of (field_reads o u) fs xs /\ union_is o u fs xs.

(** ** Calls *)

(** A field without argument can be left out: there is no AnyPointer in it
    (outside the unions), see C31_anypointer_refuted *)
Fixpoint has_default (f : field) : Prop :=
  match f with
  | FSlot _ _ _ t _ _ _ => t <> TAny
  | FGroup _ _ _ true _ _ => True
  | FGroup _ _ _ false _ fs =>
      (fix go l := match l with [] => True | g :: r => (f_disc g = None -> has_default g) /\ go r end) fs
  end.

(** [call_of P fs kw vals]: the keyword arguments [kw] are names of the
    fields [fs], with values as in [P]; [vals n] is what the argument [n]
    stores out of line *)
Record call_of (P : field -> pyval -> list value -> Prop)
  (fs : list field) (kw : list (string * pyval)) (vals : string -> list value) : Prop := {
  call_names : forall n x, In (n, x) kw -> exists f, In f fs /\ f_name f = n;
  call_given : forall f x, In f fs -> assoc kw (f_name f) = Some x ->
               (is_member f = true -> x <> PUndef) /\ P f x (vals (f_name f));
  call_missing : forall f, In f fs -> assoc kw (f_name f) = None -> f_disc f = None -> has_default f
}.
Definition call_ok (fuel : nat) := call_of (arg_ok fuel).
Definition call_valid (fuel : nat) := call_of (arg_valid fuel).

(** The members of the union that are given *)
Definition members_given (fs : list field) (kw : list (string * pyval)) : list field :=
  filter (fun f => is_member f && match assoc kw (f_name f) with Some _ => true | None => false end) fs.

(** The bytes of the object: its sections and what the arguments store *)
Definition call_size (sn : struct_node) (kw : list (string * pyval)) (vals : string -> list value) : Z :=
  8 * (sn_ds sn + sn_ps sn) +
  out_size (flat_map (fun f => match assoc kw (f_name f) with Some _ => vals (f_name f) | None => [] end)
                     (filter visible (sn_fields sn))).

(** The value of a field that is not given: the default of the schema for
    scalars, None for pointers; a group takes the ones of its fields *)
Definition arg_for (kw : list (string * pyval)) (f : field) : pyval :=
  match assoc kw (f_name f) with Some x => x | None => default None f end.

(** The field as if it were not part of the union *)
Definition alone (f : field) : field :=
  match f with
  | FSlot n o _ t off e d => FSlot n o None t off e d
  | FGroup n o _ nl u fs => FGroup n o None nl u fs
  end.

(** No field inside of a group has the given name and order *)
Fixpoint no_key (k : string * Z) (f : field) : Prop :=
  match f with
  | FSlot _ _ _ _ _ _ _ => True
  | FGroup _ _ _ _ _ fs =>
      (fix go l := match l with [] => True | g :: r => same_field g k = false /\ no_key k g /\ go r end) fs
  end.

(** The arguments of Cls.new_foo: the member foo with its argument or its
    default, the other members of the union not at all *)
Definition new_arg (kw : list (string * pyval)) (tag f : field) : pyval :=
  if is_member f then
    if String.eqb (f_name f) (f_name tag)
    then match assoc kw (f_name f) with Some x => x | None => default None (alone f) end
    else PUndef
  else arg_for kw f.
